(** C128: rows of transactions that did not commit. *)
From Coq Require Import String ZifyBool.
From Verif Require Import GoBase Utils Ibdata Cmd SpecInno SpecText SpecSql SpecRecord SpecRow SpecPage SpecDict SpecTool SpecTrx
  PBase PWire PValue PText PRec PPage PSql PFile PDict PBuild PTool PropDict PropTool PMake.
Local Open Scope string_scope.
Local Open Scope list_scope.
Local Open Scope Z_scope.

Lemma by_page rt ss page rows : page_holds_by rt ss page rows -> page_holds rt false ss page (map fst rows).
Proof.
  intros [c [offs [H1 [H2 H3]]]]. exists c, offs. split; [exact H1|]. split; [exact H2|]. clear - H3.
  induction H3 as [|off r offs rows [U [fs [S1 [S2 [S3 _]]]]] _ IH]; cbn [map]; constructor; [|exact IH]. split; [exact U|]. exists fs. auto.
Qed.
Lemma by_input rt d sys_pages t db tb ss pages rows : tool_input_by rt d sys_pages t db tb ss pages rows -> tool_input rt false d sys_pages t db tb ss pages (map fst rows).
Proof.
  intros [A1 [A2 [A3 [A4 [A5 [A6 [A7 [A8 [A9 [A10 [A11 [B1 [contents [B2 B3]]]]]]]]]]]]]].
  do 11 (split; [assumption|]). split; [exact B1|]. exists (map (map fst) contents). split.
  - clear - B2. induction B2 as [|p c ps cs H _ IH]; cbn [map]; constructor; [now apply by_page|exact IH].
  - rewrite <- concat_map, B3, !map_map. reflexivity.
Qed.
Lemma lasting_length committed rows : List.length (lasting committed rows) = List.length rows -> forall r, In r rows -> committed (snd r) = true.
Proof.
  unfold lasting. rewrite map_length. assert (L : forall l, (List.length (filter (fun r : row * Z => committed (snd r)) l) <= List.length l)%nat).
  { induction l as [|x l IH]; cbn [filter List.length]; [lia|]. destruct (committed (snd x)); cbn [List.length]; lia. }
  induction rows as [|x rows IH]; [intros _ r []|]. intros H r Hr. cbn [filter List.length] in H. destruct (committed (snd x)) eqn:E; cbn [List.length] in H; [|specialize (L rows); lia].
  destruct Hr as [<-|Hr]; [exact E|]. apply IH; [lia|exact Hr].
Qed.
Lemma lasting_all committed rows : (forall r, In r rows -> committed (snd r) = true) -> lasting committed rows = map fst rows.
Proof.
  unfold lasting. induction rows as [|x rows IH]; intro H; [reflexivity|]. cbn [filter]. rewrite (H x (or_introl eq_refl)). cbn [map]. f_equal. apply IH. intros r Hr. apply H. now right.
Qed.

(** The claim: the statements are those of the rows of committed transactions.
    It is false: the tool does not look at the transactions.  Every row is
    printed, whoever wrote it, so that the claim holds for just those files of
    which every row was committed. *)
Theorem C128_committed_refuted : forall fuel rt files op sys tfile d sys_pages t db tb ss pages rows (committed : Z -> bool),
  tool_input_by rt d sys_pages t db tb ss pages rows -> front_key d (td_id t) -> op <> txt "RecoveryData" ->
  files sys = Some (map IoBytes sys_pages) -> files tfile = Some (map IoBytes pages) -> (Z.to_nat 16384 < fuel)%nat ->
  exists lines, FromDataFile fuel rt files op sys tfile db tb = (lines, Ok tt)
    /\ Forall2 (fun r line => read_replace line = Some (db, tb, values (columns_of d (td_id t)) (fst r))) rows lines
    /\ (Forall2 (fun r line => read_replace line = Some (db, tb, values (columns_of d (td_id t)) r)) (lasting committed rows) lines
        <-> forall r, In r rows -> committed (snd r) = true).
Proof.
  intros fuel rt files op sys tfile d sys_pages t db tb ss pages rows committed HI Hk Hop F1 F2 Hfuel.
  assert (Ed : is_deleted op = false) by (unfold is_deleted; destruct (list_eq_dec Z.eq_dec op (txt "RecoveryData")); [contradiction|reflexivity]).
  apply by_input in HI. rewrite <- Ed in HI.
  destruct (C82_statements_partial fuel rt files op sys tfile d sys_pages t db tb ss pages (map fst rows) HI Hk F1 F2 Hfuel) as [lines [E H]]. exists lines. split; [exact E|]. split.
  - clear - H. remember (map fst rows) as rs eqn:Er. revert rows Er. induction H as [|r line rs lines Hr _ IH]; intros [|x rows] Er; try discriminate Er; constructor; injection Er as -> Er; [exact Hr|now apply IH].
  - split.
    + intro HA. apply lasting_length. apply forall2_length in HA, H. rewrite HA, <- H. apply map_length.
    + intro HA. rewrite (lasting_all _ _ HA). exact H.
Qed.
Print Assumptions C128_committed_refuted.
(** Full statement: for every table, the statements are those of the rows whose
    transactions committed.  Proved: for the files all of whose rows were
    committed (such as after an orderly shutdown); missing (false): the others. *)
Theorem C128_committed_partial : forall fuel rt files op sys tfile d sys_pages t db tb ss pages rows (committed : Z -> bool),
  tool_input_by rt d sys_pages t db tb ss pages rows -> front_key d (td_id t) -> op <> txt "RecoveryData" ->
  files sys = Some (map IoBytes sys_pages) -> files tfile = Some (map IoBytes pages) -> (Z.to_nat 16384 < fuel)%nat ->
  (forall r, In r rows -> committed (snd r) = true) ->
  exists lines, FromDataFile fuel rt files op sys tfile db tb = (lines, Ok tt)
    /\ Forall2 (fun r line => read_replace line = Some (db, tb, values (columns_of d (td_id t)) r)) (lasting committed rows) lines.
Proof.
  intros fuel rt files op sys tfile d sys_pages t db tb ss pages rows committed HI Hk Hop F1 F2 Hfuel HA.
  destruct (C128_committed_refuted fuel rt files op sys tfile d sys_pages t db tb ss pages rows committed HI Hk Hop F1 F2 Hfuel) as [lines [E [_ H]]]. exists lines. split; [exact E|now apply H].
Qed.
Print Assumptions C128_committed_partial.

(** n(id INT NOT NULL PRIMARY KEY, v INT NOT NULL): a row of transaction 300,
    which committed, and one of 301, which did not. *)
Definition n_id : column_def := mkColumnDef 71 0 (txt "id") 6 (256 + 3) 4.
Definition n_v : column_def := mkColumnDef 71 1 (txt "v") 6 (256 + 3) 4.
Definition dict_n : dictionary := single (txt "test") (txt "n") 71 5 72 n_id [n_v].
Definition row_n (id v : list Z) : row := fun n => if list_eq_dec Z.eq_dec n (txt "id") then SStr id else SStr v.
Definition stored_n (id trx v : Z) : list stored := [FBytes (store_int 4 id); FBytes (be 6 trx); FBytes (be 7 5); FBytes (store_int 4 v)].
Definition fields_n : list (list stored) := [stored_n 1 300 10; stored_n 2 301 20].
Definition page_n : list Z := built true 3 17855 72 (map (crec (map slot_layout (key_slots [n_id] [n_v]))) fields_n).
Definition rows_n : list (row * Z) := [(row_n (txt "1") (txt "10"), 300); (row_n (txt "2") (txt "20"), 301)].
Lemma by_built rt ss number id fss rows : Forall2 (fun fs r => Forall2 fits (map slot_layout ss) fs /\ row_encodes rt ss (fst r) fs /\ written_by ss fs (snd r)) fss rows ->
  Forall fine (map (crec (map slot_layout ss)) fss) ->
  zlen (blocks true 125 (map (crec (map slot_layout ss)) fss)) <= 16000 -> 0 <= number < 2 ^ 32 -> 0 <= id < 2 ^ 64 ->
  page_holds_by rt ss (built true number 17855 id (map (crec (map slot_layout ss)) fss)) rows.
Proof.
  intros HR Hf Hl H1 H2. set (ls := map slot_layout ss) in *. destruct (built_page true number 17855 id (map (crec ls) fss)) as [P1 [_ [_ [_ [_ [_ [P2 P3]]]]]]]; try assumption; try lia.
  exists true, (origins 125 (map (crec ls) fss)). split; [exact P1|]. split; [exact P2|]. destruct P1 as [[PL _] _]. clear Hl P2. revert PL P3. generalize (built true number 17855 id (map (crec ls) fss)) as page. generalize (origins 125 (map (crec ls) fss)) as os.
  intros os page PL P3. revert os P3. clear Hf. induction HR as [|fs vs fss rows [Hfit Hre] _ IH]; intros os P3; inversion P3 as [|o ? os' ? HX P3']; subst; constructor; [|now apply IH]. destruct HX as [pre [l [post [E1 [E2 [E3 E4]]]]]].
  assert (EL : zlen page = zlen pre + zlen (low (crec ls fs)) + 2 + zlen (high (crec ls fs)) + zlen post) by (rewrite E1; change (@zlen) with (@len); rewrite !len_app, len_be; lia).
  rewrite PL in EL. split; [unfold user_origin; unfold zlen in *; lia|]. exists fs. split; [|split; [cbn [crec high] in EL; lia|exact Hre]].
  cbn [crec low high] in *. exists pre, ([0; 0; 0] ++ be 2 l), post. split; [rewrite E1; now rewrite <- !app_assoc|]. split; [lia|].
  rewrite E2. change (@zlen) with (@len) in *. rewrite !len_app, len_rev, !len_be. change (len [0; 0; 0]) with 3. split; [lia|]. split; [|exact Hfit].
  pose proof (nullable_nonneg ls). rewrite Z2Nat.id by (apply Z.div_pos; lia). fold ls. lia.
Qed.
Lemma fields_fine : Forall fine (map (crec (map slot_layout (key_slots [n_id] [n_v]))) fields_n).
Proof. apply fine_check; vm_compute; reflexivity. Qed.
Lemma fields_short : zlen (blocks true 125 (map (crec (map slot_layout (key_slots [n_id] [n_v]))) fields_n)) <= 16000.
Proof. vm_compute; discriminate. Qed.
Example C128_case : forall rt, tool_input_by rt dict_n (dict_pages dict_n) (mkTableDef (txt "test/n") 71 5) (txt "test") (txt "n") (key_slots [n_id] [n_v]) [page_n] rows_n
  /\ front_key dict_n 71 /\ txt "PrintData" <> txt "RecoveryData"
  /\ (exists committed : Z -> bool, exists r, In r rows_n /\ committed (snd r) = false /\ lasting committed rows_n = [row_n (txt "1") (txt "10")])
  /\ (exists committed : Z -> bool, forall r, In r rows_n -> committed (snd r) = true).
Proof.
  intro rt. assert (Hok : single_ok (txt "test") (txt "n") 71 n_id [n_v]) by (split; [cbn; lia|]; split; [cbn; lia|]; split; [repeat constructor|distinct]).
  split; [|split; [now apply single_front|split; [discriminate|split]]].
  - split; [apply dict_built; vm_compute; reflexivity|]. split; [now apply single_consistent|]. split; [constructor; [intros []|constructor]|]. split; [now left|].
    split; [left; split; [reflexivity|split; cbn; lia]|]. split; [discriminate|]. split; [cbn; lia|]. split; [cbn; lia|].
    change (columns_of dict_n (td_id (mkTableDef (txt "test/n") 71 5))) with [n_id; n_v]. split; [discriminate|]. split; [ordinary_columns|].
    split; [right; exists [n_id], [n_v]; split; [now apply single_key|reflexivity]|].
    destruct (built_alone 3 72 _ fields_fine fields_short) as [Hi He]; try lia. split; [exact Hi|]. fold page_n in He. rewrite He.
    eexists [_]. split; [|apply app_nil_r]. constructor; [|constructor]. apply by_built; [|exact fields_fine|exact fields_short|lia|lia].
    assert (W : forall id trx v, 0 <= trx < 2 ^ 48 -> written_by (key_slots [n_id] [n_v]) (stored_n id trx v) trx).
    { intros id trx v Ht. exists [User n_id], [User n_v], (be 7 5), [FBytes (store_int 4 id)], [FBytes (store_int 4 v)]. auto. }
    constructor; [|constructor; [|constructor]]; (split; [repeat (constructor; [vm_compute; reflexivity|]); constructor|split; [|apply W; cbn; lia]]).
    + change (row_encodes rt [User n_id; Own 6; Own 7; User n_v] [SStr (txt "1"); SStr (txt "10")] (stored_n 1 300 10)). unfold stored_n.
      constructor; [apply enc_int; try reflexivity; try (cbn; lia); number|plain_text|]. constructor; [reflexivity|]. constructor; [reflexivity|]. constructor; [apply enc_int; try reflexivity; try (cbn; lia); number|plain_text|constructor].
    + change (row_encodes rt [User n_id; Own 6; Own 7; User n_v] [SStr (txt "2"); SStr (txt "20")] (stored_n 2 301 20)). unfold stored_n.
      constructor; [apply enc_int; try reflexivity; try (cbn; lia); number|plain_text|]. constructor; [reflexivity|]. constructor; [reflexivity|]. constructor; [apply enc_int; try reflexivity; try (cbn; lia); number|plain_text|constructor].
  - exists (fun trx => trx <=? 300), (row_n (txt "2") (txt "20"), 301). split; [right; now left|]. split; reflexivity.
  - exists (fun trx => trx <=? 301). intros r [<-|[<-|[]]]; reflexivity.
Qed.
