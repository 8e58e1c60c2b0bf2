(** Properties C52-C59: the data dictionary.  Theorems only; proofs in PDict.v. *)
From Coq Require Import ZifyBool Permutation Sorted.
From Verif Require Import GoBase Utils Ibdata SpecInno SpecText SpecSql SpecRecord SpecRow SpecPage SpecDict PBase PWire PValue PText PRec PPage PSql PFile PDict PMove PropPage PropFile.
Local Open Scope list_scope.

(** A decoded row holding the given values, for the examples. *)
Definition vrow (vs : list gval) : list Column := map (fun v => mkColumn [] 0 0 0 0 v false false false 0) vs.

(** C52: names are split at the slash. *)
Theorem C52_slash : forall tm row db tb id space, tables_row row (db ++ txt "/" ++ tb) id space ->
  ~ In 47 db -> ~ In 47 tb ->
  exists tm', addTable tm row = Ok tm' /\ mget tm' id = Some (mkTable db tb [] [] 0 space)
    /\ forall id', id' <> id -> mget tm' id' = mget tm id'.
Proof.
  intros tm row db tb id space H Hd Ht. eexists. split; [apply (add_table tm row _ id space db tb H); left; split; [reflexivity|split; assumption]|].
  split; [now rewrite mget_mset, Z.eqb_refl|]. intros id' N. rewrite mget_mset. now replace (id' =? id) with false by lia.
Qed.
Print Assumptions C52_slash.
Theorem C52_plain : forall tm row name id space, tables_row row name id space -> ~ In 47 name ->
  exists tm', addTable tm row = Ok tm' /\ mget tm' id = Some (mkTable [] name [] [] 0 space)
    /\ forall id', id' <> id -> mget tm' id' = mget tm id'.
Proof.
  intros tm row name id space H Hn. eexists. split; [apply (add_table tm row _ id space [] name H); right; split; [reflexivity|split; [reflexivity|assumption]]|].
  split; [now rewrite mget_mset, Z.eqb_refl|]. intros id' N. rewrite mget_mset. now replace (id' =? id) with false by lia.
Qed.
Print Assumptions C52_plain.
Definition one_table_row (name : string) : list Column :=
  vrow [VStr (txt name); VNil; VNil; VUint 21; VInt 3; VUint 1; VStr []; VUint 0; VStr []; VUint 5].
Example C52_case : tables_row (one_table_row "shop/orders") (txt "shop" ++ txt "/" ++ txt "orders") 21 5
  /\ tables_row (one_table_row "SYS_FOREIGN") (txt "SYS_FOREIGN") 21 5 /\ ~ In 47 (txt "orders").
Proof. repeat split. intro H. repeat (destruct H as [H|H]; [discriminate H|]). exact H. Qed.

(** C53: the columns of every known table are exactly those of its rows, with
    the attributes the type word gives; nothing else of the map changes. *)
Theorem C53_attributes : forall tm rows defs, Forall2 columns_row rows defs ->
  exists tm', addAllColumns tm rows = Ok tm' /\
  forall id,
    match mget tm id with
    | None => mget tm' id = None
    | Some t => exists t' cols, mget tm' id = Some t' /\ t_columns t' = t_columns t ++ cols
        /\ Forall2 column_ok (filter (fun d => cd_table d =? id) defs) cols
        /\ t_db t' = t_db t /\ t_name t' = t_name t /\ t_indexes t' = t_indexes t /\ t_space t' = t_space t
    end.
Proof.
  intros tm rows defs H. destruct (add_all rows defs H tm) as [tm' [E HG]]. exists tm'. split; [exact E|]. intro id. rewrite HG.
  destruct (mget tm id) as [t|]; [|reflexivity]. cbn [option_map].
  destruct (growns_spec (of_table id defs) t) as [E1 [E2 [E3 [E4 E5]]]].
  exists (growns t (of_table id defs)), (map new_column (of_table id defs)). split; [reflexivity|]. split; [exact E1|]. split.
  - unfold of_table. induction (filter _ defs) as [|d ds IH]; cbn [map]; constructor; [apply new_column_ok|exact IH].
  - repeat split; assumption.
Qed.
Print Assumptions C53_attributes.
(** Lengths: as declared, except that VARBINARY columns (main type 4) get 0. *)
Theorem C53_length : forall tm row d, columns_row row d -> exists tm', addColumn tm row = Ok tm' /\
  forall t, mget tm (cd_table d) = Some t -> exists t' c, mget tm' (cd_table d) = Some t' /\ t_columns t' = t_columns t ++ [c]
    /\ c_len c = (if cd_mtype d =? 4 then 0 else cd_len d) /\ c_value c = VNil.
Proof.
  intros tm row d H. eexists. split; [apply (add_column tm row d H)|]. intros t Ht. rewrite Ht. exists (grown t (new_column d)), (new_column d).
  rewrite mget_mset, Z.eqb_refl. repeat split.
Qed.
Print Assumptions C53_length.
Definition column_row (d : column_def) : list Column :=
  vrow [VUint (cd_table d); VUint (cd_pos d); VNil; VNil; VStr (cd_name d); VUint (cd_mtype d); VUint (cd_prtype d); VUint (cd_len d); VUint 0].
Definition plain_table : Table := mkTable (txt "d") (txt "t") [] [] 0 0.
Example C53_case : exists rows defs, Forall2 columns_row rows defs /\ List.length rows = 3%nat
  /\ map cd_table defs = [21; 22; 21] /\ mget [(21, plain_table)] 21 = Some plain_table.
Proof.
  set (ds := [mkColumnDef 21 0 (txt "id") 6 (256 + 512 + 3) 4; mkColumnDef 22 0 (txt "x") 6 3 4; mkColumnDef 21 1 (txt "v") 5 (1024 + 252) 10]).
  exists (map column_row ds), ds. split; [repeat constructor|]. repeat split.
Qed.

(** C54: the count of nullable columns.  Right after any SYS_COLUMNS rows ... *)
Theorem C54_rows : forall rows tm tm', counted tm -> addAllColumns tm rows = Ok tm' -> counted tm'.
Proof. intros rows tm tm' H E. eapply add_columns_counted; eauto. Qed.
Print Assumptions C54_rows.
(** ... new tables have no columns ... *)
Theorem C54_tables : forall rows tm tm', counted tm -> addTables tm rows = Ok tm' -> counted tm'.
Proof.
  induction rows as [|r rs IH]; intros tm tm' H E; cbn [addTables] in E; [injection E as <-; exact H|].
  destruct (addTable tm r) as [tm1| |] eqn:E1; cbn [bind] in E; try discriminate. eapply IH; [|exact E]. clear E IH.
  unfold addTable in E1. destruct (as_str r 0) as [n| |]; cbn [bind] in E1; try discriminate.
  match type of E1 with bind ?e _ = _ => destruct e as [dt| |]; cbn [bind] in E1; try discriminate end.
  destruct (as_uint r 3) as [i| |]; cbn [bind] in E1; try discriminate. destruct (as_uint r 9) as [s| |]; cbn [bind] in E1; try discriminate.
  injection E1 as <-. apply counted_mset; [exact H|reflexivity].
Qed.
Print Assumptions C54_tables.
(** ... and adding the internal columns keeps it right. *)
Theorem C54_internal : forall tm tm', counted tm -> addInternalColumns tm = Ok tm' -> counted tm'.
Proof.
  intros tm tm' H E. rewrite each_internal in E. apply each_spec in E. intros id t Hin.
  assert (HF : forall a b, Forall2 (updated (fun id t => addInternal_table id (t_indexes t) (t_columns t))) a b -> In (id, t) b -> exists t0, In (id, t0) a
    /\ exists cs, addInternal_table id (t_indexes t0) (t_columns t0) = Ok cs /\ t = with_columns t0 cs).
  { induction 1 as [|[i u] y a b [cs [E1 ->]] _ IH]; intro Hi; [contradiction|]. destruct Hi as [Hi|Hi].
    - cbn [fst snd] in *. injection Hi as <- <-. exists u. split; [now left|]. exists cs. split; [exact E1|reflexivity].
    - destruct (IH Hi) as [t0 [H1 H2]]. exists t0. split; [now right|exact H2]. }
  destruct (HF _ _ E Hin) as [t0 [Hi [cs [E1 ->]]]]. cbn [with_columns t_nullcount t_columns]. rewrite (H _ _ Hi). symmetry. eapply internal_count; eauto.
Qed.
Print Assumptions C54_internal.
(** False of the key step: the nullable column a is lost. *)
Definition ncol (name : string) (pos : Z) (nullable : bool) : Column := mkColumn (txt name) 6 3 pos 4 VNil nullable false false 21.
Definition key (name : string) (cols : list string) : Index :=
  mkIndex 40 (txt name) (zlen cols) 3 (map (fun c => mkField 0 (txt c)) cols).
Definition abc_table (ixs : gomap Index) : Table := mkTable (txt "d") (txt "t") [ncol "a" 0 true; ncol "b" 1 false; ncol "c" 2 false] ixs 1 0.
Theorem C54_key_refuted : exists tm tm', counted tm /\ finishDict tm = Ok tm' /\ ~ counted tm'.
Proof.
  exists [(21, abc_table [(40, key "PRIMARY" ["b"%string])])]. eexists. split; [|split; [reflexivity|]].
  - intros id t [H|[]]. injection H as <- <-. reflexivity.
  - intro H. specialize (H 21 _ (or_introl eq_refl)). discriminate H.
Qed.
Print Assumptions C54_key_refuted.
(** Full statement: for all tables and keys.  Proved: tables without a PRIMARY
    key, and those whose key columns are the table's first columns in order. *)
Definition leading_key (t : Table) : Prop :=
  at_most_one (fun x => is_primary (snd x)) (t_indexes t) /\
  forall k ix, In (k, ix) (t_indexes t) -> is_primary ix ->
    NoDup (map c_name (t_columns t)) /\ exists K R, t_columns t = K ++ R /\ map fd_name (ix_fields ix) = map c_name K.
Theorem C54_key_partial : forall tm tm', counted tm -> (forall id t, In (id, t) tm -> leading_key t) ->
  finishDict tm = Ok tm' -> counted tm'.
Proof.
  intros tm tm' H HK E. unfold finishDict, sortColumns in E. destruct (movePrimaryKeyFirst tm) as [tm1| |] eqn:E1; cbn [bind] in E; try discriminate.
  eapply C54_internal; [|exact E]. clear E tm'. rewrite each_move in E1. apply each_spec in E1. intros id t Hin.
  assert (HF : forall a b, Forall2 (updated (fun _ t => movePK_table (t_indexes t) (t_columns t))) a b -> In (id, t) b -> exists t0, In (id, t0) a
    /\ exists cs, movePK_table (t_indexes t0) (t_columns t0) = Ok cs /\ t = with_columns t0 cs).
  { induction 1 as [|[i u] y a b [cs [E2 ->]] _ IH]; intro Hi; [contradiction|]. destruct Hi as [Hi|Hi].
    - cbn [fst snd] in *. injection Hi as <- <-. exists u. split; [now left|]. exists cs. split; [exact E2|reflexivity].
    - destruct (IH Hi) as [t0 [H1 H2]]. exists t0. split; [now right|exact H2]. }
  destruct (HF _ _ E1 Hin) as [t0 [Hi [cs [E2 ->]]]]. cbn [with_columns t_nullcount t_columns]. rewrite (H _ _ Hi). apply null_count_perm.
  destruct (HK _ _ Hi) as [Ho HL].
  destruct (class_dec is_primary _ beq_primary (t_indexes t0)) as [[k [ix [Hx Hp]]]|Hn].
  - destruct (HL k ix Hx Hp) as [Hd [K [R [EC EF]]]]. rewrite EC in *. rewrite (pk_one k ix _ _ _ Ho Hx Hp (move_prefix K R _ Hd EF)) in E2. injection E2 as <-.
    apply Permutation_app_tail, Permutation_rev.
  - rewrite pk_others in E2 by exact Hn. now injection E2 as <-.
Qed.
Print Assumptions C54_key_partial.
Lemma one_single {A} (P : A -> Prop) x : at_most_one P [x].
Proof. intros [|a [|b l1]] y l2 z l3 E; cbn in E; [destruct l2; discriminate|discriminate|discriminate]. Qed.
Example C54_case : let t := abc_table [(40, key "PRIMARY" ["a"; "b"]%string)] in counted [(21, t)] /\ leading_key t /\ exists tm', finishDict [(21, t)] = Ok tm'.
Proof.
  cbv zeta. split; [intros id t [H|[]]; injection H as <- <-; reflexivity|]. split; [|eexists; reflexivity].
  split; [apply one_single|]. intros k ix [H|[]] _. injection H as <- <-. split.
  - repeat constructor; cbn; intros H; repeat (destruct H as [H|H]; [discriminate H|]); exact H.
  - exists [ncol "a" 0 true; ncol "b" 1 false], [ncol "c" 2 false]. split; reflexivity.
Qed.

(** C55: false; a one-column key anywhere but in front replaces the first
    column of the table by a second copy of the key column, always, ... *)
Theorem C55_single_refuted : forall a before k after f,
  fd_name f = c_name k -> (forall c, In c (a :: before ++ after) -> c_name c <> c_name k) ->
  moveColumns2First [f] (a :: before ++ k :: after) = Ok (k :: before ++ k :: after).
Proof. intros. now apply move_single. Qed.
Print Assumptions C55_single_refuted.
(** ... and a key of the first two columns is turned round. *)
Theorem C55_order_refuted : exists fields cols r, moveColumns2First fields cols = Ok r
  /\ map fd_name fields = [txt "a"; txt "b"] /\ map c_name (key_first (map fd_name fields) cols) = [txt "a"; txt "b"; txt "c"]
  /\ map c_name r = [txt "b"; txt "a"; txt "c"].
Proof. exists (ix_fields (key "PRIMARY" ["a"; "b"]%string)), (t_columns (abc_table [])). eexists. split; [reflexivity|]. repeat split. Qed.
Print Assumptions C55_order_refuted.
(** Full statement: the result is [key_first].  Proved: if the key is the
    table's first column; a longer key made of the first columns keeps every
    column, but comes out reversed. *)
Theorem C55_first_partial : forall k rest f, NoDup (map c_name (k :: rest)) -> fd_name f = c_name k ->
  moveColumns2First [f] (k :: rest) = Ok (key_first [fd_name f] (k :: rest)).
Proof.
  intros k rest f Hd Hf. rewrite Hf. change (key_first [c_name k] (k :: rest)) with (key_first (map c_name [k]) ([k] ++ rest)). rewrite (key_first_prefix [k] rest Hd). apply (move_prefix [k] rest [f]); [exact Hd|cbn; now rewrite Hf].
Qed.
Print Assumptions C55_first_partial.
Theorem C55_leading_partial : forall K R fields, NoDup (map c_name (K ++ R)) -> map fd_name fields = map c_name K ->
  key_first (map fd_name fields) (K ++ R) = K ++ R /\ moveColumns2First fields (K ++ R) = Ok (rev K ++ R).
Proof. intros K R fields Hd Hf. split; [rewrite Hf; now apply key_first_prefix|now apply move_prefix]. Qed.
Print Assumptions C55_leading_partial.
(** Exactly which keys come out right: none, and the first column alone. *)
Theorem C55_exact_refuted : forall fields cols, NoDup (map c_name cols) -> NoDup (map fd_name fields) ->
  incl (map fd_name fields) (map c_name cols) ->
  exists r, moveColumns2First fields cols = Ok r /\ List.length r = List.length cols
  /\ (r = key_first (map fd_name fields) cols <->
     fields = [] \/ exists f k rest, fields = [f] /\ cols = k :: rest /\ fd_name f = c_name k).
Proof.
  intros fields cols Hd Hf Hi. destruct (move_total fields cols) as [r [Er Lr]].
  { rewrite <- (map_length fd_name), <- (map_length c_name cols). now apply NoDup_incl_length. }
  exists r. split; [exact Er|]. split; [exact Lr|]. split.
  - intros ->. destruct (move_right fields cols Hd Hf Hi Er) as [Hl HF]. destruct fields as [|f [|? ?]]; [now left| |cbn in Hl; lia]. right.
    destruct cols as [|k rest]; [inversion HF|]. cbn [List.length firstn] in HF. inversion HF as [|? ? ? ? HF1 _]; subst. now exists f, k, rest.
  - intros [->|(f & k & rest & -> & -> & E)].
    + pose proof (key_first_prefix [] cols Hd) as X. change (key_first (map fd_name []) cols = cols) in X. rewrite X.
      pose proof (move_prefix [] cols [] Hd eq_refl) as Y. change (moveColumns2First [] cols = Ok cols) in Y. rewrite Y in Er. injection Er as <-. reflexivity.
    + assert (X : moveColumns2First [f] (k :: rest) = Ok (key_first [fd_name f] (k :: rest))) by now apply C55_first_partial.
      rewrite X in Er. injection Er as <-. reflexivity.
Qed.
Print Assumptions C55_exact_refuted.
Example C55_exact_case : let fields := ix_fields (key "PRIMARY" ["c"; "a"]%string) in let cols := t_columns (abc_table []) in
  NoDup (map c_name cols) /\ NoDup (map fd_name fields) /\ incl (map fd_name fields) (map c_name cols).
Proof.
  cbv zeta. split; [|split]; [repeat constructor; cbn; intros H; repeat (destruct H as [H|H]; [discriminate H|]); exact H..|].
  intros x [<-|[<-|[]]]; cbn; tauto.
Qed.
Theorem C55_others_partial : forall tm, (forall id t, In (id, t) tm -> forall k ix, In (k, ix) (t_indexes t) -> ~ is_primary ix) ->
  movePrimaryKeyFirst tm = Ok tm.
Proof.
  intros tm H. rewrite each_move. apply each_spec. induction tm as [|[id t] tm IH]; constructor.
  - exists (t_columns t). split; [apply pk_others; apply (H id t); now left|]. destruct t; reflexivity.
  - apply IH. intros i u Hin. apply (H i u). now right.
Qed.
Print Assumptions C55_others_partial.
Example C55_case : let cols := t_columns (abc_table []) in NoDup (map c_name cols)
  /\ key_first [txt "b"] cols = [ncol "b" 1 false; ncol "a" 0 true; ncol "c" 2 false].
Proof. split; [|reflexivity]. repeat constructor; cbn; intros H; repeat (destruct H as [H|H]; [discriminate H|]); exact H. Qed.

(** C54 exactly, for a key of one column that is not the first: the count is
    right only if the lost first column and the key column are both nullable or
    both not.  (MySQL's key columns are never nullable: so, only if the first
    column is not.) *)
Theorem C54_single_refuted : forall tm tm' id t i ix f a before k after,
  counted tm -> finishDict tm = Ok tm' -> In (id, t) tm ->
  at_most_one (fun x => is_primary (snd x)) (t_indexes t) -> In (i, ix) (t_indexes t) -> is_primary ix -> ix_fields ix = [f] ->
  t_columns t = a :: before ++ k :: after -> fd_name f = c_name k ->
  (forall c, In c (a :: before ++ after) -> c_name c <> c_name k) ->
  exists t', In (id, t') tm' /\ t_db t' = t_db t /\ t_name t' = t_name t
    /\ (t_nullcount t' = null_count (t_columns t') <-> c_null a = c_null k).
Proof.
  intros tm tm' id t i ix f a before k after H E Hin Ho Hi Hp EF EC Hf Hne. unfold finishDict, sortColumns in E.
  destruct (movePrimaryKeyFirst tm) as [tm1| |] eqn:E1; cbn [bind] in E; try discriminate.
  rewrite each_move in E1. apply each_spec in E1. rewrite each_internal in E. apply each_spec in E.
  assert (HF : forall g (x : Z * Table) l m, Forall2 (updated g) l m -> In x l -> exists y, In y m /\ updated g x y).
  { intros g x l m. induction 1 as [|p q l m Hpq _ IH]; [contradiction|]. intros [->|Hx].
    - exists q. split; [now left|exact Hpq].
    - destruct (IH Hx) as [y [Y1 Y2]]. exists y. split; [now right|exact Y2]. }
  destruct (HF _ _ _ _ E1 Hin) as [y1 [I1 [cs1 [M1 ->]]]]. cbn [fst snd] in *.
  destruct (HF _ _ _ _ E I1) as [y2 [I2 [cs2 [M2 ->]]]]. cbn [fst snd] in *.
  exists (with_columns (with_columns t cs1) cs2). split; [exact I2|]. split; [reflexivity|]. split; [reflexivity|].
  cbn [with_columns t_nullcount t_columns]. cbn [with_columns t_indexes t_columns] in M2. rewrite (internal_count _ _ _ _ M2).
  rewrite (pk_one i ix _ _ (Ok (k :: before ++ k :: after)) Ho Hi Hp) in M1.
  2:{ rewrite EF, EC. now apply C55_single_refuted. }
  injection M1 as <-. rewrite (H _ _ Hin), EC.
  change (null_count (a :: before ++ k :: after)) with (null_count ([a] ++ before ++ k :: after)).
  change (null_count (k :: before ++ k :: after)) with (null_count ([k] ++ before ++ k :: after)).
  assert (N : forall x, null_count [x] = if c_null x then 1 else 0) by (intro x; unfold null_count; cbn [filter]; destruct (c_null x); reflexivity).
  rewrite !(null_count_app [_]), !N. destruct (c_null a), (c_null k); split; intro; try reflexivity; try discriminate; lia.
Qed.
Print Assumptions C54_single_refuted.
Example C54_single_case : let t := abc_table [(40, key "PRIMARY" ["b"%string])] in
  counted [(21, t)] /\ (exists tm', finishDict [(21, t)] = Ok tm') /\ t_columns t = ncol "a" 0 true :: [] ++ ncol "b" 1 false :: [ncol "c" 2 false]
  /\ at_most_one (fun x => is_primary (snd x)) (t_indexes t)
  /\ forall c, In c [ncol "a" 0 true; ncol "c" 2 false] -> c_name c <> txt "b".
Proof.
  cbv zeta. split; [intros id t [H|[]]; injection H as <- <-; reflexivity|]. split; [eexists; reflexivity|]. split; [reflexivity|].
  split; [apply one_single|]. intros c [<-|[<-|[]]]; discriminate.
Qed.

(** C56: where the internal columns go. *)
Definition with_internal (id : Z) (t t' : Table) : Prop :=
  t_db t' = t_db t /\ t_name t' = t_name t /\ t_indexes t' = t_indexes t /\ t_nullcount t' = t_nullcount t /\ t_space t' = t_space t /\
  (forall k ix, In (k, ix) (t_indexes t) -> is_primary ix ->
     t_columns t' = firstn (Z.to_nat (ix_nfields ix)) (t_columns t)
       ++ [internal_column id "DB_TRX_ID" (ix_nfields ix) 6; internal_column id "DB_ROLL_PTR" (ix_nfields ix + 1) 7]
       ++ skipn (Z.to_nat (ix_nfields ix)) (t_columns t)) /\
  (forall k ix, In (k, ix) (t_indexes t) -> is_generated ix ->
     t_columns t' = [internal_column id "DB_ROW_ID" 0 6; internal_column id "DB_TRX_ID" 1 6; internal_column id "DB_ROLL_PTR" 2 7] ++ t_columns t) /\
  ((forall k ix, In (k, ix) (t_indexes t) -> ~ clustered ix) -> t_columns t' = t_columns t).
Theorem C56_placed : forall tm,
  (forall id t, In (id, t) tm -> at_most_one (fun x => clustered (snd x)) (t_indexes t)
     /\ forall k ix, In (k, ix) (t_indexes t) -> is_primary ix -> 0 <= ix_nfields ix <= zlen (t_columns t) /\ ix_nfields ix < 2 ^ 32) ->
  exists tm', addInternalColumns tm = Ok tm' /\ Forall2 (fun x x' => fst x' = fst x /\ with_internal (fst x) (snd x) (snd x')) tm tm'.
Proof.
  intros tm H. rewrite each_internal. induction tm as [|[id t] tm IH]; [exists []; split; [reflexivity|constructor]|].
  destruct IH as [tm' [E HF]]; [intros i u Hin; apply (H i u); now right|].
  destruct (H id t (or_introl eq_refl)) as [Ho Hb].
  assert (HC : exists cs, addInternal_table id (t_indexes t) (t_columns t) = Ok cs /\ with_internal id t (with_columns t cs)).
  { destruct (class_dec clustered _ beq_clustered (t_indexes t)) as [[k [ix [Hi Hc]]]|Hn].
    - assert (Hu : forall k' ix', In (k', ix') (t_indexes t) -> clustered ix' -> ix' = ix).
      { intros k' ix' Hi' Hc'. destruct (in_split _ _ Hi) as [l1 [l2 El]]. rewrite El in Hi', Ho. apply in_app_or in Hi' as [X|[X|X]].
        - exfalso. apply in_split in X as [a [b ->]]. apply (Ho a (k', ix') b (k, ix) l2); [rewrite <- app_assoc; reflexivity|exact Hc'|exact Hc].
        - now injection X as _ ->.
        - exfalso. apply in_split in X as [a [b ->]]. now apply (Ho l1 (k, ix) a (k', ix') b). }
      rewrite (internal_one_eq id k ix (t_indexes t) (t_columns t) Ho Hi Hc). destruct Hc as [Hp|Hg].
      + destruct (Hb k ix Hi Hp) as [[Hb1 Hb2] Hb3]. set (n := ix_nfields ix) in *.
        assert (Hl : len (firstn (Z.to_nat n) (t_columns t)) = n) by (unfold len; rewrite firstn_length_le; unfold zlen in Hb2; lia).
        pose proof (step_primary id ix (firstn (Z.to_nat n) (t_columns t)) (skipn (Z.to_nat n) (t_columns t)) Hp (eq_sym Hl)) as Es.
        rewrite Hl, firstn_skipn in Es. rewrite Es by lia. eexists. split; [reflexivity|].
        unfold with_internal. cbn [with_columns t_db t_name t_indexes t_nullcount t_space t_columns]. repeat (split; [reflexivity|]).
        split; [|split].
        * intros k' ix' Hi' Hp'. rewrite (Hu k' ix' Hi' (or_introl Hp')). reflexivity.
        * intros k' ix' Hi' Hg'. exfalso. apply (primary_not_generated ix Hp). now rewrite <- (Hu k' ix' Hi' (or_intror Hg')).
        * intro Hn. exfalso. apply (Hn k ix Hi). now left.
      + rewrite step_generated by exact Hg. eexists. split; [reflexivity|].
        unfold with_internal. cbn [with_columns t_db t_name t_indexes t_nullcount t_space t_columns]. repeat (split; [reflexivity|]).
        split; [|split].
        * intros k' ix' Hi' Hp'. exfalso. rewrite (Hu k' ix' Hi' (or_introl Hp')) in Hp'. now apply (primary_not_generated ix).
        * intros k' ix' Hi' Hg'. reflexivity.
        * intro Hn. exfalso. apply (Hn k ix Hi). now right.
    - rewrite internal_others by exact Hn. eexists. split; [reflexivity|].
      unfold with_internal. cbn [with_columns t_db t_name t_indexes t_nullcount t_space t_columns]. repeat (split; [reflexivity|]).
      split; [|split]; [intros k ix Hi Hp; exfalso; apply (Hn k ix Hi); now left|intros k ix Hi Hg; exfalso; apply (Hn k ix Hi); now right|reflexivity]. }
  destruct HC as [cs [E1 HW]]. exists ((id, with_columns t cs) :: tm'). split; [cbn [each]; rewrite E1; cbn [bind]; now rewrite E|].
  constructor; [split; [reflexivity|exact HW]|exact HF].
Qed.
Print Assumptions C56_placed.
Example C56_case : forall id t, In (id, t) [(21, abc_table [(41, key "idx" ["c"%string]); (40, key "PRIMARY" ["a"; "b"]%string)]); (22, abc_table [(42, key "GEN_CLUST_INDEX" [])])] ->
  at_most_one (fun x => clustered (snd x)) (t_indexes t)
     /\ forall k ix, In (k, ix) (t_indexes t) -> is_primary ix -> 0 <= ix_nfields ix <= zlen (t_columns t) /\ ix_nfields ix < 2 ^ 32.
Proof.
  intros id t [H|[H|[]]]; injection H as <- <-; split.
  - intros [|x1 [|x2 [|x3 l1]]] x l2 y l3 E Hx Hy; cbn in E; try discriminate E.
    + injection E as <- E. destruct Hx as [Hx|Hx]; discriminate Hx.
    + injection E as <- <- E. destruct l2; discriminate E.
  - intros k ix [H|[H|[]]] Hp; injection H as <- <-; [discriminate Hp|]. cbv. repeat split; discriminate.
  - apply one_single.
  - intros k ix [H|[]] Hp; injection H as <- <-. discriminate Hp.
Qed.

(** C57: false; columns stay in the order of the dictionary rows. *)
Theorem C57_order_refuted : exists rows defs tm1 tm2, Forall2 columns_row rows defs
  /\ addAllColumns [(21, plain_table)] rows = Ok tm1 /\ finishDict tm1 = Ok tm2
  /\ exists t, mget tm2 21 = Some t /\ map c_pos (t_columns t) = [1; 0].
Proof.
  set (ds := [mkColumnDef 21 1 (txt "v") 6 3 4; mkColumnDef 21 0 (txt "id") 6 3 4]).
  exists (map column_row ds), ds. eexists. eexists. split; [repeat constructor|]. split; [reflexivity|]. split; [reflexivity|]. eexists. split; reflexivity.
Qed.
Print Assumptions C57_order_refuted.
(** Exactly: the columns of a table end up in position order if and only if
    its dictionary rows came in that order. *)
Theorem C57_exact_refuted : forall tm rows defs id t, Forall2 columns_row rows defs ->
  mget tm id = Some t -> t_columns t = [] ->
  exists tm' t', addAllColumns tm rows = Ok tm' /\ mget (sortColumns tm') id = Some t'
    /\ (StronglySorted Z.lt (map c_pos (t_columns t')) <-> StronglySorted Z.lt (map cd_pos (filter (fun d => cd_table d =? id) defs))).
Proof.
  intros tm rows defs id t H Ht Hc. destruct (add_all rows defs H tm) as [tm' [E HG]]. exists tm', (growns t (of_table id defs)). split; [exact E|].
  unfold sortColumns. rewrite HG, Ht. split; [reflexivity|]. destruct (growns_spec (of_table id defs) t) as [E1 _]. rewrite E1, Hc. cbn [app].
  rewrite map_map. cbn [new_column c_pos]. reflexivity.
Qed.
Print Assumptions C57_exact_refuted.
(** Full statement: for rows in any order.  Proved: if the rows of a table come
    in position order (as SYS_COLUMNS' own key makes them), its columns do. *)
Theorem C57_order_partial : forall tm rows defs id t, Forall2 columns_row rows defs ->
  mget tm id = Some t -> t_columns t = [] ->
  StronglySorted Z.lt (map cd_pos (filter (fun d => cd_table d =? id) defs)) ->
  exists tm' t', addAllColumns tm rows = Ok tm' /\ mget (sortColumns tm') id = Some t' /\ StronglySorted Z.lt (map c_pos (t_columns t')).
Proof.
  intros tm rows defs id t H Ht Hc Hs. destruct (add_all rows defs H tm) as [tm' [E HG]]. exists tm', (growns t (of_table id defs)). split; [exact E|].
  unfold sortColumns. rewrite HG, Ht. split; [reflexivity|]. destruct (growns_spec (of_table id defs) t) as [E1 _]. rewrite E1, Hc. cbn [app].
  rewrite map_map. cbn [new_column c_pos]. exact Hs.
Qed.
Print Assumptions C57_order_partial.
Example C57_case : exists defs, StronglySorted Z.lt (map cd_pos (filter (fun d => cd_table d =? 21) defs)) /\ List.length defs = 3%nat.
Proof.
  exists [mkColumnDef 21 0 (txt "id") 6 3 4; mkColumnDef 22 0 (txt "x") 6 3 4; mkColumnDef 21 1 (txt "v") 6 3 4]. split; [|reflexivity].
  cbn. repeat constructor.
Qed.

(** C58: the order of the maps does not matter. *)
Definition same_dict (tm tm' : gomap Table) : Prop :=
  exists mid, Permutation tm mid /\ Forall2 (fun x x' => fst x = fst x' /\ t_db (snd x) = t_db (snd x') /\ t_name (snd x) = t_name (snd x')
    /\ t_columns (snd x) = t_columns (snd x') /\ Permutation (t_indexes (snd x)) (t_indexes (snd x'))
    /\ t_nullcount (snd x) = t_nullcount (snd x') /\ t_space (snd x) = t_space (snd x')) mid tm'.
Theorem C58_finish : forall tm tm' r, same_dict tm tm' ->
  (forall id t, In (id, t) tm -> at_most_one (fun x => clustered (snd x)) (t_indexes t)) ->
  finishDict tm = Ok r -> exists r', finishDict tm' = Ok r' /\ same_dict r r'.
Proof.
  intros tm tm' r [mid [Hp HF]] Ho E.
  assert (HE : forall f, (forall id t t', fst (id, t) = id -> at_most_one (fun x => clustered (snd x)) (t_indexes t) ->
      t_columns t = t_columns t' -> Permutation (t_indexes t) (t_indexes t') -> f id t = f id t') ->
    forall tm mid tm' r, Permutation tm mid -> Forall2 (fun x x' => fst x = fst x' /\ t_db (snd x) = t_db (snd x') /\ t_name (snd x) = t_name (snd x')
    /\ t_columns (snd x) = t_columns (snd x') /\ Permutation (t_indexes (snd x)) (t_indexes (snd x'))
    /\ t_nullcount (snd x) = t_nullcount (snd x') /\ t_space (snd x) = t_space (snd x')) mid tm' ->
    (forall id t, In (id, t) tm -> at_most_one (fun x => clustered (snd x)) (t_indexes t)) ->
    each f tm = Ok r -> exists r', each f tm' = Ok r' /\ same_dict r r').
  { clear. intros f Hf tm mid tm' r Hp HF Ho E. apply each_spec in E.
    assert (HM : exists rm, Permutation r rm /\ Forall2 (updated f) mid rm).
    { clear HF Ho. revert r E. induction Hp as [|x l l' _ IH|x y l|l1 l2 l3 _ IH1 _ IH2]; intros r E.
      - inversion E; subst. exists []. split; constructor.
      - inversion E as [|? b ? bs H1 H2]; subst. destruct (IH _ H2) as [rm [P1 P2]]. exists (b :: rm). split; [now constructor|now constructor].
      - inversion E as [|? b ? bs H1 H2]; subst. inversion H2 as [|? b2 ? bs2 H3 H4]; subst. exists (b2 :: b :: bs2). split; [apply perm_swap|constructor; [assumption|constructor; assumption]].
      - destruct (IH1 _ E) as [rm [P1 P2]]. destruct (IH2 _ P2) as [rm2 [P3 P4]]. exists rm2. split; [now transitivity rm|exact P4]. }
    destruct HM as [rm [P1 P2]].
    assert (Ho' : forall id t, In (id, t) mid -> at_most_one (fun x => clustered (snd x)) (t_indexes t)).
    { intros id t Hin. apply (Ho id). apply (Permutation_in (l := mid)); [now symmetry|exact Hin]. }
    clear Hp Ho E. 
    assert (HR : exists r', Forall2 (updated f) tm' r' /\ Forall2 (fun x x' => fst x = fst x' /\ t_db (snd x) = t_db (snd x') /\ t_name (snd x) = t_name (snd x')
    /\ t_columns (snd x) = t_columns (snd x') /\ Permutation (t_indexes (snd x)) (t_indexes (snd x'))
    /\ t_nullcount (snd x) = t_nullcount (snd x') /\ t_space (snd x) = t_space (snd x')) rm r').
    { clear P1. revert rm P2. induction HF as [|[i t] [i' t'] mid tm' [H1 [H2 [H3 [H4 [H5 [H6 H7]]]]]] _ IH]; intros rm P2.
      - inversion P2; subst. exists []. split; constructor.
      - inversion P2 as [|? b ? bs [cs [H8 ->]] H9]; subst. cbn [fst snd] in *. subst i'.
        destruct IH with (rm := bs) as [r' [Q1 Q2]]; [intros j u Hin; apply (Ho' j u); now right|exact H9|].
        exists ((i, with_columns t' cs) :: r'). split; constructor; try assumption.
        + exists cs. cbn [fst snd]. split; [|reflexivity]. rewrite <- H8. symmetry. apply Hf; [reflexivity|apply (Ho' i); now left|exact H4|exact H5].
        + cbn [fst snd with_columns t_db t_name t_columns t_indexes t_nullcount t_space]. repeat split; assumption. }
    destruct HR as [r' [Q1 Q2]]. exists r'. split; [now apply each_spec|]. exists rm. split; assumption. }
  unfold finishDict, sortColumns in *. destruct (movePrimaryKeyFirst tm) as [r1| |] eqn:E1; cbn [bind] in E; try discriminate.
  rewrite each_move in E1.
  destruct (HE _ (fun id t t' _ HO HC HP => eq_trans (pk_perm _ _ _ HP (one_weaken (fun x => clustered (snd x)) (fun x => is_primary (snd x)) _ (fun x H => or_introl H) HO)) (f_equal _ HC)) tm mid tm' r1 Hp HF Ho E1) as [r1' [E1' [mid1 [Hp1 HF1]]]].
  rewrite each_move, E1'. cbn [bind]. rewrite each_internal in E |- *.
  apply (HE (fun id t => addInternal_table id (t_indexes t) (t_columns t))) with (tm := r1) (mid := mid1); try assumption.
  - intros id t t' _ HO HC HP. rewrite <- HC. now apply internal_perm.
  - apply each_spec in E1. intros id t Hin. clear - E1 Ho Hin. revert Hin. induction E1 as [|[i u] b tm r1 [cs [H1 ->]] _ IH]; intro Hin; [contradiction|].
    destruct Hin as [Hin|Hin]; [|apply IH; [intros j v Hj; apply (Ho j v); now right|exact Hin]].
    cbn [fst snd] in Hin. injection Hin as <- <-. cbn [with_columns t_indexes]. apply (Ho i u). now left.
Qed.
Print Assumptions C58_finish.
Theorem C58_by_name : forall tm tm' db tb, Permutation tm tm' ->
  at_most_one (fun x => t_db (snd x) = db /\ t_name (snd x) = tb) tm ->
  getTableColumnsFromDict tm db tb = getTableColumnsFromDict tm' db tb.
Proof.
  intros tm tm' db tb Hp Ho. unfold getTableColumnsFromDict. rewrite !fold_columns. set (f := fun kt : Z * Table => beq (t_db (snd kt)) db && beq (t_name (snd kt)) tb).
  assert (Hf : forall x, f x = true -> t_db (snd x) = db /\ t_name (snd x) = tb) by (intros x Hx; unfold f in Hx; rewrite andb_true_iff, !beq_eq in Hx; exact Hx).
  assert (P : Permutation (filter f (rev tm)) (filter f (rev tm'))).
  { apply perm_filter. rewrite <- !Permutation_rev. exact Hp. }
  assert (Ho' : at_most_one (fun x => t_db (snd x) = db /\ t_name (snd x) = tb) (rev tm)) by (apply (one_perm _ tm); [apply Permutation_rev|exact Ho]).
  destruct (one_filter _ f (rev tm) Hf Ho') as [E|[x E]]; rewrite E in *.
  - apply Permutation_nil in P. now rewrite P.
  - apply Permutation_length_1_inv in P. now rewrite P.
Qed.
Print Assumptions C58_by_name.
Theorem C58_by_id : forall (tm tm' : gomap Table) id, NoDup (map fst tm) -> Permutation tm tm' -> mget tm id = mget tm' id.
Proof. intros. now apply mget_perm. Qed.
Print Assumptions C58_by_id.
Example C58_case : let tm := [(21, abc_table [(41, key "idx" ["c"%string]); (40, key "PRIMARY" ["a"%string])]); (22, plain_table)] in
  let tm' := [(22, plain_table); (21, abc_table [(40, key "PRIMARY" ["a"%string]); (41, key "idx" ["c"%string])])] in
  same_dict tm tm' /\ NoDup (map fst tm) /\ exists r, finishDict tm = Ok r.
Proof.
  cbv zeta. split; [|split; [|eexists; reflexivity]].
  - exists [(22, plain_table); (21, abc_table [(41, key "idx" ["c"%string]); (40, key "PRIMARY" ["a"%string])])]. split; [apply perm_swap|].
    repeat constructor.
  - repeat constructor; cbn; intros H; repeat (destruct H as [H|H]; [discriminate H|]); exact H.
Qed.

(** C59: without the root page of one of the four trees, no dictionary. *)
Theorem C59_absent : forall fuel rt pages id, Forall page_image pages -> In id [1; 2; 3; 4] ->
  (forall p, In p (firsts pages) -> In (page_number p) (roots (firsts pages)) -> index_of p <> id) ->
  forall out tm, ParseDictPage fuel rt (Some (map IoBytes pages)) <> (out, Ok (tm, None)).
Proof.
  intros fuel rt pages id Hp Hid Hn out tm. destruct (dict_run fuel rt pages Hp) as [D [-> HD]].
  destruct (find (fun p => page_number p =? 7) (firsts pages)) as [s|] eqn:Ef.
  - apply (dict_never' fuel rt D id Hid). rewrite HD. apply tree_none. intros p Hi Hr. apply (Hn p Hi). unfold roots0 in Hr. rewrite Ef in Hr. now apply is_root_in.
  - destruct (no_sys_absent (firsts pages) (numbers_distinct (rev pages)) Ef) as [k [Hk HX]].
    apply (dict_never' fuel rt D k); [cbn in *; tauto|]. rewrite HD. now apply tree_none.
Qed.
Print Assumptions C59_absent.
(** If it is SYS_TABLES that is missing, the outcome is exactly the error. *)
Theorem C59_tables : forall fuel rt pages, Forall page_image pages -> In 7 (map page_number (firsts pages)) ->
  (forall p, In p (firsts pages) -> In (page_number p) (roots (firsts pages)) -> index_of p <> 1) ->
  ParseDictPage fuel rt (Some (map IoBytes pages)) = ([], Ok ([], Some (txt "sys table's page have not found"))).
Proof.
  intros fuel rt pages Hp H7 Hn. destruct (dict_run fuel rt pages Hp) as [D [-> HD]].
  change (txt "sys table's page have not found") with err_tables.
  apply dict_missing. rewrite HD. apply tree_none. intros p Hi Hr. apply (Hn p Hi). unfold roots0 in Hr.
  destruct (find _ (firsts pages)) as [s|] eqn:Ef; [now apply is_root_in|].
  apply in_map_iff in H7 as [q [E Hq]]. pose proof (find_none _ _ Ef q Hq) as X. cbv beta in X. lia.
Qed.
Print Assumptions C59_tables.
(** Whatever goes wrong, the message is that of the first tree without a root
    page, or names a table id. *)
Definition has_tree (pages : list (list Z)) (id : Z) : Prop :=
  exists p, In p (firsts pages) /\ In (page_number p) (roots (firsts pages)) /\ index_of p = id.
Definition tree_messages : list (Z * list Z) :=
  [(1, txt "sys table's page have not found"); (2, txt "sys column's page have not found");
   (3, txt "sys indexes' page have not found"); (4, txt "sys field's page have not found")].
Theorem C59_messages : forall fuel rt pages out tm e, Forall page_image pages -> In 7 (map page_number (firsts pages)) ->
  ParseDictPage fuel rt (Some (map IoBytes pages)) = (out, Ok (tm, Some e)) ->
  (exists id, In (id, e) tree_messages /\ ~ has_tree pages id /\ forall id', 1 <= id' < id -> has_tree pages id')
  \/ ((forall id', 1 <= id' < 4 -> has_tree pages id') /\ exists n t, int_text n t /\ e = txt "Table ID have not found " ++ t).
Proof.
  intros fuel rt pages out tm e Hp H7. destruct (dict_run fuel rt pages Hp) as [D [-> HD]]. intro E.
  assert (HR : roots0 (firsts pages) = roots (firsts pages)).
  { unfold roots0. destruct (find _ (firsts pages)) as [s|] eqn:Ef; [reflexivity|].
    apply in_map_iff in H7 as [q [E7 Hq]]. pose proof (find_none _ _ Ef q Hq) as X. cbv beta in X. lia. }
  rewrite HR in HD. assert (HN : forall k, mget D k = None -> ~ has_tree pages k).
  { intros k Hk [p [P1 [P2 P3]]]. rewrite HD in Hk. apply is_root_in in P2. clear - Hk P1 P2 P3.
    assert (HS : forall ps l, fold_left (tree_step (roots (firsts pages)) k) ps (Some l) <> None).
    { induction ps as [|q ps IH]; intro l; [discriminate|]. cbn [fold_left]. unfold tree_step at 2. destruct (index_of q =? k); [destruct (is_root (roots (firsts pages)) q)|]; apply IH. }
    set (rts := roots (firsts pages)) in *. clearbody rts. apply in_split in P1 as [a [b E]]. rewrite E in Hk. rewrite fold_left_app in Hk. cbn [fold_left] in Hk.
    revert Hk. unfold tree_step at 2. rewrite P2. replace (index_of p =? k) with true by lia. apply HS. }
  assert (HY : forall k, mget D k <> None -> has_tree pages k).
  { intros k Hk. rewrite HD in Hk. clear - Hk. unfold has_tree.
    destruct (find (fun p => is_root (roots (firsts pages)) p && (index_of p =? k)) (firsts pages)) as [p|] eqn:Ef.
    - apply find_some in Ef as [F1 F2]. apply andb_prop in F2 as [F2 F3]. exists p. split; [exact F1|]. split; [now apply is_root_in|lia].
    - exfalso. apply Hk, tree_none. intros p Hi Hr Ei. pose proof (find_none _ _ Ef p Hi) as X. cbv beta in X. rewrite Hr in X. lia. }
  assert (HB : forall A B (m : W A) (f : A -> W B) o b, wbind m f = (o, Ok b) -> exists o1 a o2, m = (o1, Ok a) /\ f a = (o2, Ok b)).
  { intros A B [o1 [a| |]] f o b H; cbn in H; try discriminate. destruct (f a) as [o2 r] eqn:Ef. injection H as _ ->. eauto. }
  unfold dict_rest in E.
  apply HB in E as [o1 [[tm1 e1] [o1' [E1 E]]]]. unfold getAllTables in E1. change SysTablesIdx with 1 in E1.
  destruct (mget D 1) as [p1|] eqn:M1.
  2:{ injection E1 as _ _ <-. injection E as _ _ <-. left. exists 1. split; [now left|]. split; [now apply HN|lia]. }
  apply HB in E1 as [? [? [? [_ E1]]]]. injection E1 as _ _ <-.
  apply HB in E as [o2 [[tm2 e2] [o2' [E2 E]]]]. unfold getAllColumns in E2. change SysColumnsIdx with 2 in E2.
  assert (T1 : has_tree pages 1) by (apply HY; congruence).
  destruct (mget D 2) as [p2|] eqn:M2.
  2:{ injection E2 as _ _ <-. injection E as _ _ <-. left. exists 2. split; [right; now left|]. split; [now apply HN|].
      intros id' Hid. now replace id' with 1 by lia. }
  apply HB in E2 as [? [? [? [_ E2]]]]. apply HB in E2 as [? [? [? [_ E2]]]]. injection E2 as _ _ <-.
  apply HB in E as [o3 [[tm3 e3] [o3' [E3 E]]]]. unfold getAllIndexes in E3. change SysIndexesIdx with 3 in E3.
  assert (T2 : has_tree pages 2) by (apply HY; congruence).
  destruct (mget D 3) as [p3|] eqn:M3.
  2:{ injection E3 as _ _ <-. injection E as _ _ <-. left. exists 3. split; [right; right; now left|]. split; [now apply HN|].
      intros id' Hid. destruct (Z.eq_dec id' 1) as [->|]; [assumption|now replace id' with 2 by lia]. }
  assert (T3 : has_tree pages 3) by (apply HY; congruence).
  assert (TT : forall id', 1 <= id' < 4 -> has_tree pages id').
  { intros id' Hid. destruct (Z.eq_dec id' 1) as [->|]; [assumption|]. destruct (Z.eq_dec id' 2) as [->|]; [assumption|now replace id' with 3 by lia]. }
  apply HB in E3 as [? [rows [? [_ E3]]]]. destruct e3 as [e3|].
  - injection E as _ _ <-. right. split; [exact TT|]. unfold wlift in E3. injection E3 as _ E3.
    assert (HX : forall rows tm err tm' m, addIndexes tm err rows = Ok (tm', Some m) -> err = Some m \/ exists n t, int_text n t /\ m = txt "Table ID have not found " ++ t).
    { clear. induction rows as [|r rows IH]; intros tm err tm' m H; cbn [addIndexes] in H; [injection H as _ ->; now left|].
      destruct (addIndex tm r) as [[tm1 e]| |] eqn:Ea; cbn [bind] in H; try discriminate. apply IH in H as [H|H]; [|now right].
      destruct e as [e|]; [|now left]. injection H as ->. right. unfold addIndex in Ea.
      destruct (as_uint r 0) as [id| |]; cbn [bind] in Ea; try discriminate. destruct (mget tm id).
      - destruct (as_uint r 1), (as_str r 4), (as_uint r 6), (as_uint r 5); cbn [bind] in Ea; discriminate.
      - injection Ea as _ <-. exists id, (fmt_d id). split; [apply fmt_d_spec|reflexivity]. }
    apply HX in E3 as [E3|E3]; [discriminate|exact E3].
  - apply HB in E as [o4 [[tm4 e4] [o4' [E4 E]]]]. unfold getAllFields in E4. change SysFieldsIdx with 4 in E4.
    destruct (mget D 4) as [p4|] eqn:M4.
    + apply HB in E4 as [? [? [? [_ E4]]]]. apply HB in E4 as [? [? [? [_ E4]]]]. injection E4 as _ _ <-.
      apply HB in E as [? [? [? [_ E]]]]. discriminate E.
    + injection E4 as _ _ <-. injection E as _ _ <-. left. exists 4. split; [right; right; right; now left|]. split; [now apply HN|exact TT].
Qed.
Print Assumptions C59_messages.
(** A file whose header page names root pages 8, 10, 11 and 12, of which only 8 is there. *)
Definition sys_page (r1 r2 r3 r4 : Z) : list Z :=
  be 4 0 ++ be 4 7 ++ repeat 0 62 ++ be 4 r1 ++ repeat 0 4 ++ be 4 r2 ++ be 4 r3 ++ be 4 r4 ++ repeat 0 (Z.to_nat (16384 - 90)).
Definition empty_root (number id : Z) : list Z :=
  be 4 0 ++ be 4 number ++ repeat 0 58 ++ be 8 id ++ repeat 0 (Z.to_nat (16384 - 74)).
Example C59_case : let pages := [sys_page 8 10 11 12; empty_root 8 1] in Forall page_image pages
  /\ firsts pages = pages /\ roots pages = [8; 10; 11; 12] /\ map page_number pages = [7; 8] /\ map index_of pages = [8; 1].
Proof.
  cbv zeta. assert (Hb : forall n, Forall (fun b => 0 <= b < 256) (repeat 0 n)) by (intro m; apply Forall_forall; intros x Hx; apply repeat_spec in Hx; lia).
  split; [|repeat split; vm_compute; reflexivity].
  apply Forall_cons; [|apply Forall_cons; [|constructor]]; (split; [vm_compute; reflexivity|]); unfold sys_page, empty_root;
    repeat first [apply be_bytes | apply Hb | apply Forall_app; split].
Qed.
Example C59_messages_case : forall rt, exists e, ParseDictPage 3 rt (Some (map IoBytes [sys_page 8 10 11 12; empty_root 8 2])) = ([], Ok ([], Some e)).
Proof. intro rt. eexists. vm_compute. reflexivity. Qed.
