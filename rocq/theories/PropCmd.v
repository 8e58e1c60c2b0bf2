(** Properties C72-C74 and C80: the commands.  Proofs of the universal
    output lemmas in POut.v. *)
From Coq Require Import Lia ZifyBool.
From Verif Require Import GoBase Utils Ibdata Redo Cmd SpecInno SpecText SpecSql SpecCmd SpecRecord SpecRow SpecPage PBase PRec PPage PSql PFile POut PFilter PropValue PropRec PropPage PropFile.
Local Open Scope Z_scope.
Local Open Scope list_scope.

(** * C72 *)
(** False: a DECIMAL column prints a message per row.  The page holds two rows
    with a four-byte DECIMAL key. *)
Definition dec_table : Table :=
  mkTable (txt "d") (txt "t") [ dcol "id" 3 246 4 false; dcol "DB_TRX_ID" 0 0 6 false; dcol "DB_ROLL_PTR" 0 0 7 false; dcol "v" 12 15 200 false ] [] 0 0.
Theorem C72_only_replace_refuted : forall rt, exists l1 l2,
  ParseDataPage 5 rt [(7, dec_table)] (Some [IoBytes (leaf_page 3 53 65522 65510 0 0)]) (txt "d") (txt "t") false
  = ([decimal_message; decimal_message; l1; l2], Ok None).
Proof. intro rt. eexists. eexists. vm_compute. reflexivity. Qed.
Print Assumptions C72_only_replace_refuted.
(** More: for every file of whole pages whose eligible pages hold rows, the
    lines that are no statements are exactly one message per DECIMAL value that
    is not NULL ([remarks]), printed before the statements of its page. *)
Definition is_message (l : bytes) : bool := if list_eq_dec Z.eq_dec l decimal_message then true else false.
Theorem C72_exact_refuted : forall rt tm pages db tb deleted cols ls contents fuel,
  Forall page_image pages -> is_table tm db tb cols ->
  Forall2 describes cols ls -> (3 <= List.length cols)%nat ->
  Forall2 (page_content rt tm deleted cols ls) (filter (eligible deleted) (firsts pages)) contents ->
  (Z.to_nat 16384 < fuel)%nat ->
  exists lines statements, ParseDataPage fuel rt tm (Some (map IoBytes pages)) db tb deleted = (lines, Ok None)
    /\ lines = List.concat (map (fun x => fst x ++ snd x) (combine (map fst contents) statements))
    /\ Forall2 (fun content st => List.length st = List.length (snd content)) contents statements
    /\ Forall (Forall (replace_line db tb)) statements
    /\ filter is_message lines = List.concat (map fst contents)
    /\ ~ replace_line db tb decimal_message.
Proof.
  intros rt tm pages db tb deleted cols ls contents fuel Hi Ht HD H3 HC Hfuel.
  assert (Hfi : Forall page_image (firsts pages)).
  { apply Forall_forall. intros p Hp. apply firsts_incl in Hp. rewrite Forall_forall in Hi. now apply Hi. }
  assert (Hno : ~ replace_line db tb decimal_message) by (intros [v E]; discriminate E).
  unfold ParseDataPage. rewrite file_pages by exact Hi. rewrite wbind_lift. cbv beta iota. rewrite (known_columns _ _ _ _ Ht).
  destruct fuel as [|fuel]; [lia|]. rewrite eligible_filter by exact Hfi.
  destruct (pages_printed (S fuel) rt tm db tb deleted cols ls HD H3 Hfuel _ _ HC) with (cols1 := cols) as [shown [out [E HF]]].
  - apply Forall_forall. intros p Hp. apply filter_In in Hp. rewrite Forall_forall in Hfi. now apply Hfi.
  - apply Forall_forall. intros p Hp. apply filter_In in Hp. tauto.
  - apply moved_refls.
  - exists out, (map (map (replace_statement rt tb db)) shown). split; [rewrite E; cbn; now rewrite app_nil_r|].
    assert (Hm : Forall (fun ct => Forall (fun l => l = decimal_message) (fst ct)) contents).
    { clear - HC. induction HC as [|p ct ps cts Hp _ IH]; constructor; [|exact IH]. destruct Hp as (compact & offs & _ & _ & _ & HR). destruct ct as [ln rows]. cbn [fst snd] in *.
      induction HR as [|off offs fs row rows ln _ _ Hrow _ IH']; [constructor|]. apply Forall_app. split; [|exact IH'].
      clear - Hrow. set (after := skipn _ _) in Hrow. clearbody after. induction Hrow as [|c cs l ls fs r _ IH|c cs l ls f fs v bin r Hf _ _ IH]; cbn [remarks]; [constructor|exact IH|].
      destruct f; [contradiction| |]; (apply Forall_app; split; [unfold remark; destruct (_ && _); repeat constructor|exact IH]). }
    clear - HF Hm Hno. induction HF as [|ct cts rows shown out Hr _ IH]; [repeat split; try constructor; exact Hno|].
    inversion Hm as [|? ? Hm1 Hm2]; subst. destruct (IH Hm2) as [I1 [I2 [I3 [I4 _]]]].
    cbn [map combine fst snd List.concat]. split; [rewrite <- app_assoc; f_equal; f_equal; exact I1|]. split; [constructor; [rewrite map_length; symmetry; exact (forall2_length _ _ _ Hr)|exact I2]|].
    assert (Hs : forall row, replace_line db tb (replace_statement rt tb db row)) by (intro row; exists (columns_text rt true row); reflexivity).
    split; [constructor; [|exact I3]; apply Forall_forall; intros x Hx; apply in_map_iff in Hx as [row [<- _]]; apply Hs|].
    split; [|exact Hno]. rewrite !filter_app, I4. f_equal.
    + assert (G : forall l0, Forall (fun l => l = decimal_message) l0 -> filter is_message l0 = l0); [|exact (G _ Hm1)].
      induction 1 as [|l ls -> _ IHl]; [reflexivity|]. cbn [filter]. unfold is_message at 1. destruct (list_eq_dec _ _ _); [now rewrite IHl|contradiction].
    + clear - Hs Hno. induction rows as [|row rows IH]; [reflexivity|]. cbn [map filter app]. unfold is_message at 1. destruct (list_eq_dec _ _ _) as [Eq|_]; [|exact IH].
      exfalso. apply Hno. rewrite <- Eq. apply Hs.
Qed.
Print Assumptions C72_exact_refuted.
(** The table and page of [C72_only_replace_refuted] meet the hypotheses, with
    two messages. *)
Definition dec_cols : list Column := t_columns dec_table.
Definition dec_out (n : Z) (v : string) : list Column :=
  map (fun cv => set_value (fst cv) (snd cv) false) (combine dec_cols [VStr [128; 0; 0; n]; VNil; VNil; VStr (txt v)]).
Lemma dec_row_of rt after n v : row_of rt after dec_cols two_lays (two_row n v) (dec_out n v).
Proof.
  unfold dec_cols, dec_table, t_columns, two_lays, two_row, dec_out.
  eapply row_val; [discriminate|cbn [content fst c_type c_mysql dcol]; unfold ParseData; rewrite (slice_to_app [128; 0; 0; n] _ _) by reflexivity; reflexivity|].
  do 2 (eapply row_quiet; [discriminate|reflexivity|]).
  eapply row_quiet; [discriminate|apply C19_text_exact; right; right; left; reflexivity|]. constructor.
Qed.
Example C72_exact_case : forall rt, let pages := [zero_page; leaf_page 3 53 65522 65510 0 0] in
  Forall page_image pages /\ is_table [(7, dec_table)] (txt "d") (txt "t") dec_cols /\ Forall2 describes dec_cols two_lays
  /\ Forall2 (page_content rt [(7, dec_table)] false dec_cols two_lays) (filter (eligible false) (firsts pages))
       [([decimal_message; decimal_message], [dec_out 2 "de"; dec_out 1 "abc"])].
Proof.
  intros rt pages. split; [|split; [|split]].
  - constructor; [apply zero_image|]. constructor; [exact (proj1 (leaf_format _ _ _ _ _ _))|constructor].
  - split; [exists 7, dec_table; split; [now left|split; reflexivity]|]. intros id t [H|[]] _ _. injection H as <- <-. reflexivity.
  - unfold dec_cols, dec_table, t_columns. solve_describes.
  - assert (E : filter (eligible false) (firsts pages) = [leaf_page 3 53 65522 65510 0 0]).
    { unfold pages, firsts. cbn [rev app firsts_rev existsb].
      replace (page_number zero_page) with 0 by (vm_compute; reflexivity).
      replace (page_number (leaf_page 3 53 65522 65510 0 0)) with 3 by (vm_compute; reflexivity). cbn [Z.eqb orb app filter].
      destruct C45_case as [E1 [E2 _]]. rewrite E1, E2. reflexivity. }
    rewrite E. constructor; [|constructor]. exists true, [152; 126]. split; [apply leaf_format|]. split.
    { intros _. exists (dcol "id" 3 246 4 false), dec_table. split; [reflexivity|]. split; [reflexivity|]. split; [solve_describes|reflexivity]. }
    split.
    + apply chain_step; [vm_compute; reflexivity|]. apply chain_step; [vm_compute; reflexivity|]. apply chain_end. vm_compute; reflexivity.
    + destruct (leaf_at 3 53 65522 65510 0 0) as [HA HB]. cbn [fst snd].
      change [decimal_message; decimal_message] with (remarks dec_cols (two_row 2 "de") ++ remarks dec_cols (two_row 1 "abc") ++ []).
      apply rows_cons with (fs := two_row 2 "de"); [unfold user_origin; lia|exact HB|apply dec_row_of|].
      apply rows_cons with (fs := two_row 1 "abc"); [unfold user_origin; lia|exact HA|apply dec_row_of|]. constructor.
Qed.
(** Full statement: on success every line is a REPLACE statement for the table
    asked for.  Proved, for arbitrary file contents: every line is one, or the
    message about DECIMAL, and the latter only if the dictionary has such a
    column for the table; nothing is printed while the dictionary is read; and
    without success only one further line is printed, the error.  Missing
    (false): DECIMAL columns. *)
Theorem C72_only_replace_partial : forall fuel rt files op sys tfile db tb,
  match ParseDictPage fuel rt (files sys) with
  | (o, Ok (tm, None)) => o = [] /\
    exists lines, (fst (FromDataFile fuel rt files op sys tfile db tb) = lines \/
                   exists e, snd (ParseDataPage fuel rt tm (files tfile) db tb (is_recovery op)) = Ok (Some e)
                     /\ fst (FromDataFile fuel rt files op sys tfile db tb) = lines ++ [e])
    /\ Forall (fun line => replace_line db tb line \/
         (line = decimal_message /\ exists k t c, In (k, t) tm /\ t_db t = db /\ t_name t = tb /\ In c (t_columns t) /\ c_type c = 3 /\ c_mysql c = 246)) lines
  | (o, Ok (_, Some e)) => o = [] /\ FromDataFile fuel rt files op sys tfile db tb = ([e], Ok tt)
  | (o, Panic) => o = [] /\ FromDataFile fuel rt files op sys tfile db tb = ([], Panic)
  | (o, NoFuel) => o = [] /\ FromDataFile fuel rt files op sys tfile db tb = ([], NoFuel)
  end.
Proof.
  intros fuel rt files op sys tfile db tb. unfold FromDataFile.
  pose proof (dict_silent rt fuel (files sys)) as Hd. destruct (ParseDictPage fuel rt (files sys)) as [o [[tm [e|]]| |]]; cbn [fst] in Hd; subst o; cbn [wbind]; (split; [reflexivity|]); try reflexivity.
  assert (HO : wout (fun line => replace_line db tb line \/ (line = decimal_message /\ exists k t c, In (k, t) tm /\ t_db t = db /\ t_name t = tb /\ In c (t_columns t) /\ c_type c = 3 /\ c_mysql c = 246))
    (ParseDataPage fuel rt tm (files tfile) db tb (is_recovery op))).
  { apply wo_dataPage.
    - intro row. left. exists (columns_text rt true row). reflexivity.
    - apply Forall_forall. intros c Hc Ht Hm. right. split; [reflexivity|]. clear - Hc Ht Hm. unfold getTableColumnsFromDict in Hc.
      assert (G : forall l acc, incl l tm -> (In c acc -> exists k t c, In (k, t) tm /\ t_db t = db /\ t_name t = tb /\ In c (t_columns t) /\ c_type c = 3 /\ c_mysql c = 246) ->
        In c (fold_left (fun columns kt => if beq (t_db (snd kt)) db && beq (t_name (snd kt)) tb then t_columns (snd kt) else columns) l acc) ->
        exists k t c, In (k, t) tm /\ t_db t = db /\ t_name t = tb /\ In c (t_columns t) /\ c_type c = 3 /\ c_mysql c = 246).
      { induction l as [|[k t] l IH]; intros acc Hi Ha Hin; cbn [fold_left snd] in Hin; [now apply Ha|].
        apply (IH _ (fun x Hx => Hi x (or_intror Hx))) in Hin; [exact Hin|].
        destruct (beq (t_db t) db && beq (t_name t) tb) eqn:E; [|exact Ha]. intro X. apply andb_true_iff in E as [E1 E2]. apply beq_eq in E1, E2.
        exists k, t, c. split; [apply Hi; now left|]. repeat split; try assumption. }
      apply (G tm [] (fun x H => H)) in Hc; [exact Hc|intros []]. }
  destruct (ParseDataPage fuel rt tm (files tfile) db tb (is_recovery op)) as [o [[e|]| |]]; unfold wout in HO; cbn [fst] in HO; exists o; cbn [fst snd].
  - split; [|exact HO]. right. exists e. split; reflexivity.
  - split; [|exact HO]. left. cbn. now rewrite app_nil_r.
  - split; [|exact HO]. left. reflexivity.
  - split; [|exact HO]. left. reflexivity.
Qed.
Print Assumptions C72_only_replace_partial.
Example C72_case : forall rt, exists l1 l2, ParseDataPage 5 rt [(7, two_table)] (Some [IoBytes (leaf_page 3 53 65522 65510 0 0)]) (txt "d") (txt "t") false = ([l1; l2], Ok None).
Proof. intro rt. eexists. eexists. vm_compute. reflexivity. Qed.

(** * C73 *)
Theorem C73_mode : forall fuel rt files op sys tfile db tb,
  FromDataFile fuel rt files op sys tfile db tb
  = ('(tm, err) <-w ParseDictPage fuel rt (files sys) ;;
     match err with
     | Some e => say e
     | None =>
       err <-w ParseDataPage fuel rt tm (files tfile) db tb (if list_eq_dec Z.eq_dec op (txt "RecoveryData") then true else false) ;;
       match err with Some e => say e | None => wret tt end
     end).
Proof.
  intros. unfold FromDataFile. replace (is_recovery op) with (if list_eq_dec Z.eq_dec op (txt "RecoveryData") then true else false); [reflexivity|].
  unfold is_recovery. destruct (list_eq_dec Z.eq_dec op (txt "RecoveryData")) as [->|N]; [reflexivity|].
  destruct (beq op (bs "RecoveryData")) eqn:E; [|reflexivity]. apply beq_eq in E. now destruct N.
Qed.
Print Assumptions C73_mode.
Lemma split_parts s : parts_of s (split_on 44 s).
Proof.
  induction s as [|c t [H1 [H2 H3]]]; cbn [split_on]; [split; [discriminate|]; split; [repeat constructor; intros []|reflexivity]|].
  destruct (c =? 44) eqn:E.
  - assert (c = 44) by lia. subst c. split; [discriminate|]. split; [constructor; [intros []|exact H2]|]. cbn [joined]. destruct (split_on 44 t); [now destruct H1|]. cbn [app]. now rewrite H3.
  - destruct (split_on 44 t) as [|p ps]; [now destruct H1|]. inversion H2 as [|? ? N1 N2]; subst. split; [discriminate|]. split.
    + constructor; [|exact N2]. intros [X|X]; [lia|now apply N1].
    + cbn [joined]. destruct ps; reflexivity.
Qed.
Lemma parts_unique : forall s a b, parts_of s a -> parts_of s b -> a = b.
Proof.
  assert (G : forall a b, a <> [] -> b <> [] -> Forall (fun p => ~ In 44 p) a -> Forall (fun p => ~ In 44 p) b -> joined a = joined b -> a = b).
  { assert (Hx : forall p q x y, ~ In 44 p -> ~ In 44 q -> p ++ 44 :: x = q ++ 44 :: y -> p = q /\ x = y).
    { induction p as [|c p IH]; destruct q as [|d q]; cbn; intros x y Np Nq E; injection E; intros; subst; try tauto.
      destruct (IH q x y) as [-> ->]; try tauto. }
    assert (Hn : forall p q y, ~ In 44 p -> p <> q ++ 44 :: y) by (intros p q y N ->; apply N, in_elt).
    induction a as [|p a IH]; intros b Ha Hb Fa Fb E; [now destruct Ha|]. destruct b as [|q b]; [now destruct Hb|].
    inversion Fa as [|? ? Np Fa']; subst. inversion Fb as [|? ? Nq Fb']; subst. cbn [joined] in E.
    destruct a as [|p' a], b as [|q' b].
    - now subst.
    - exfalso. exact (Hn p q _ Np E).
    - exfalso. symmetry in E. exact (Hn q p _ Nq E).
    - apply Hx in E as [-> E]; try assumption. f_equal. apply IH; try assumption; discriminate. }
  intros s a b [A1 [A2 A3]] [B1 [B2 B3]]. apply G; congruence.
Qed.
(** The files read are exactly the option's parts. *)
Theorem C73_files : forall opt parts, redo_files opt = parts <-> parts_of opt parts.
Proof. intros opt parts. split; [intros <-; apply split_parts|]. intro H. exact (parts_unique opt _ _ (split_parts opt) H). Qed.
Print Assumptions C73_files.
Theorem C73_redo : forall fuel rt files sys opt parts db tb spare, parts_of opt parts ->
  FromRedoFile fuel rt files sys opt db tb spare
  = ('(tm, err) <-w ParseDictPage fuel rt (files sys) ;;
     match err with
     | Some _ => wret tt
     | None =>
       err <-w ParseRedoLogs rt tm db tb (map files parts) spare ;;
       match err with Some e => say (txt "parse redo failed, error:  " ++ e) | None => wret tt end
     end).
Proof. intros fuel rt files sys opt parts db tb spare H. apply C73_files in H. subst parts. reflexivity. Qed.
Print Assumptions C73_redo.
Example C73_case : redo_files (txt "/a/ib_logfile0,/a/ib_logfile1,") = [txt "/a/ib_logfile0"; txt "/a/ib_logfile1"; []]
  /\ parts_of (txt "x") [txt "x"] /\ is_recovery (txt "RecoveryData") = true /\ is_recovery (txt "recoverydata") = false.
Proof. split; [reflexivity|]. split; [apply C73_files; reflexivity|]. split; reflexivity. Qed.

(** * C74 *)
Lemma lower_same a b : same_text a b <-> to_lower a = to_lower b.
Proof.
  unfold same_text, to_lower. split.
  - intro H. induction H as [|x y a b H _ IH]; [reflexivity|]. cbn [map]. f_equal; [|exact IH].
    unfold same_letter in H. destruct ((65 <=? x) && (x <=? 90)) eqn:E1, ((65 <=? y) && (y <=? 90)) eqn:E2; lia.
  - revert b. induction a as [|x a IH]; intros [|y b] H; try discriminate; [constructor|]. cbn [map] in H. injection H as H1 H2. constructor; [|now apply IH].
    unfold same_letter. destruct ((65 <=? x) && (x <=? 90)) eqn:E1, ((65 <=? y) && (y <=? 90)) eqn:E2; lia.
Qed.
Lemma lower_name n name : nth_error level_names n = Some name -> to_lower name = name.
Proof. intro H. do 6 (destruct n as [|n]; [injection H as <-; reflexivity|]). destruct n; discriminate. Qed.
Theorem C74_levels : forall s n, configured s n <-> level_of s = n.
Proof.
  assert (K : forall s n name, nth_error level_names n = Some name -> to_lower s = name -> level_of s = Z.of_nat n).
  { intros s n name H1 H2. unfold level_of. rewrite H2. do 6 (destruct n as [|n]; [injection H1 as <-; reflexivity|]). destruct n; discriminate. }
  assert (C : forall s n, configured s n -> level_of s = n).
  { intros s n H. destruct H as [n name H1 H2|H].
    - apply (K s n name H1). rewrite <- (lower_name n name H1). now apply lower_same.
    - unfold level_of. cbv zeta.
      assert (N : forall name k, nth_error level_names k = Some name -> beq (to_lower s) name = false).
      { intros name k Hk. destruct (beq (to_lower s) name) eqn:E; [|reflexivity]. apply beq_eq in E. exfalso. apply (H name (nth_error_In _ _ Hk)). apply lower_same. now rewrite (lower_name k name Hk). }
      change (bs "trace") with (txt "trace"). change (bs "debug") with (txt "debug"). change (bs "info") with (txt "info"). change (bs "warn") with (txt "warn"). change (bs "error") with (txt "error"). change (bs "fatal") with (txt "fatal").
      rewrite (N (txt "trace") 5%nat), (N (txt "debug") 4%nat), (N (txt "info") 3%nat), (N (txt "warn") 2%nat), (N (txt "error") 1%nat), (N (txt "fatal") 0%nat) by reflexivity. reflexivity. }
  intros s n. split; [apply C|]. intros <-.
  assert (Dec : (exists k name, nth_error level_names k = Some name /\ same_text s name) \/ (forall name, In name level_names -> ~ same_text s name)).
  { destruct (existsb (beq (to_lower s)) level_names) eqn:E.
    - left. apply existsb_exists in E as [name [H1 H2]]. apply beq_eq in H2. apply In_nth_error in H1 as [k Hk]. exists k, name. split; [exact Hk|]. apply lower_same. now rewrite (lower_name k name Hk).
    - right. intros name Hn Hsame. apply lower_same in Hsame. destruct (In_nth_error _ _ Hn) as [k Hk]. rewrite (lower_name k name Hk) in Hsame.
      assert (X : existsb (beq (to_lower s)) level_names = true) by (apply existsb_exists; exists name; split; [exact Hn|now apply beq_eq]). congruence. }
  destruct Dec as [[k [name [H1 H2]]]|H].
  - assert (Q : configured s (Z.of_nat k)) by now apply (named s k name). now rewrite (C s _ Q).
  - assert (Q : configured s 3) by now apply unnamed. now rewrite (C s _ Q).
Qed.
Print Assumptions C74_levels.
Theorem C74_emitted : forall s n severity, configured s n -> (log_emitted (level_of s) severity = true <-> severity <= n).
Proof. intros s n sev H. apply C74_levels in H. subst n. unfold log_emitted. apply Z.leb_le. Qed.
Print Assumptions C74_emitted.
Theorem C74_nested : forall s less more, less <= more -> log_emitted (level_of s) more = true -> log_emitted (level_of s) less = true.
Proof. intros s a b. unfold log_emitted. lia. Qed.
Theorem C74_case_insensitive : forall a b, same_text a b -> level_of a = level_of b.
Proof. intros a b H. apply lower_same in H. unfold level_of. now rewrite H. Qed.
Print Assumptions C74_case_insensitive.
Example C74_case : configured (txt "WaRn") 2 /\ configured (txt "verbose") 3 /\ log_emitted (level_of (txt "WARN")) LevelError = true /\ log_emitted (level_of (txt "WARN")) LevelInfo = false.
Proof. split; [apply C74_levels; reflexivity|]. split; [apply C74_levels; reflexivity|]. split; reflexivity. Qed.

(** * C80: the redo command's output *)
(** False: the messages (C70). *)
Theorem C80_only_update_refuted : forall rt, exists tm data,
  fst (parseRedoBlockData rt tm [] [] data 0) = [decimal_message].
Proof.
  intro rt. exists [(40, mkTable (txt "b") (txt "t") [mkColumn (txt "id") 3 246 0 3 VNil false false false 0] [(1, mkIndex 1 (txt "PRIMARY") 1 3 [mkField 0 (txt "id")])] 0 0)],
    [20; 0; 5; 0; 7; 11; 3; 40; 3; 128; 0; 7; 31; 31; 31; 31; 31]. reflexivity.
Qed.
Print Assumptions C80_only_update_refuted.
(** Full statement: every line is an UPDATE statement of a requested table.
    Proved, for arbitrary log files and dictionaries: every line is an UPDATE
    statement of a table of the dictionary that is requested or has the
    requested table name (C33), or one of two messages, or - the last one only -
    the error that ended the command.  Missing (false): those. *)
Theorem C80_only_update_partial : forall fuel rt files sys opt db tb spare,
  exists lines last, fst (FromRedoFile fuel rt files sys opt db tb spare) = lines ++ last
  /\ (last = [] \/ exists e, last = [txt "parse redo failed, error:  " ++ e])
  /\ Forall (fun line => line = decimal_message \/ line = compressed_message \/
       exists tm k t, snd (ParseDictPage fuel rt (files sys)) = Ok (tm, None) /\ mget tm k = Some t
         /\ (requested db tb (t_db t) (t_name t) \/ tb = t_name t) /\ update_line (t_db t) (t_name t) line) lines.
Proof.
  intros fuel rt files sys opt db tb spare. unfold FromRedoFile.
  pose proof (dict_silent rt fuel (files sys)) as Hd. destruct (ParseDictPage fuel rt (files sys)) as [o [[tm [e|]]| |]]; cbn [fst] in Hd; subst o; cbn [snd wbind];
    try (exists [], []; split; [reflexivity|]; split; [now left|constructor]).
  assert (HO : wout (fun line => line = decimal_message \/ line = compressed_message \/ exists tm0 k t, Ok (tm, @None bytes) = Ok (tm0, None) /\ mget tm0 k = Some t
         /\ (requested db tb (t_db t) (t_name t) \/ tb = t_name t) /\ update_line (t_db t) (t_name t) line)
    (ParseRedoLogs rt tm db tb (map files (redo_files opt)) spare)).
  { apply wo_redo; [right; left; reflexivity|left; reflexivity|]. intros k t keys cols Ht Hf. right. right. exists tm, k, t. split; [reflexivity|]. split; [exact Ht|]. split.
    - unfold redo_filter in Hf. unfold requested. assert (R : forall a b : bytes, beq a b = true <-> a = b) by (intros; apply beq_eq).
      destruct (beq (t_db t) db) eqn:E1; [apply R in E1; subst db; destruct (beq (t_name t) tb) eqn:E2; [apply R in E2; subst; tauto|apply R in Hf; subst; tauto]|].
      destruct (beq db [] && beq tb []) eqn:E2; [apply andb_true_iff in E2; rewrite !R in E2; destruct E2; subst; tauto|]. apply andb_true_iff in Hf as [_ Hf]. apply R in Hf. tauto.
    - eexists. eexists. unfold update_statement. reflexivity. }
  destruct (ParseRedoLogs rt tm db tb (map files (redo_files opt)) spare) as [o [[e|]| |]]; unfold wout in HO; cbn [fst] in HO; cbn [wbind say wret app fst]; rewrite ?app_nil_r.
  - exists o, [bs "parse redo failed, error:  " ++ e]. split; [reflexivity|]. split; [right; now exists e|exact HO].
  - exists o, []. rewrite app_nil_r. split; [reflexivity|]. split; [now left|exact HO].
  - exists o, []. rewrite app_nil_r. split; [reflexivity|]. split; [now left|exact HO].
  - exists o, []. rewrite app_nil_r. split; [reflexivity|]. split; [now left|exact HO].
Qed.
Print Assumptions C80_only_update_partial.
Example C80_case : forall rt, exists l, fst (parseRedoBlockData rt [(40, mkTable (txt "b") (txt "t") [mkColumn (txt "id") 6 3 0 4 VNil false false true 0] [(1, mkIndex 1 (txt "PRIMARY") 1 3 [mkField 0 (txt "id")])] 0 0)] [] []
    [20; 0; 5; 0; 27; 12; 3; 40; 0; 0; 0; 0; 0; 77; 0; 0; 0; 0; 99; 4; 0; 0; 0; 7; 1; 0; 4; 0; 0; 0; 8; 0; 31; 31; 31; 31; 31] 0) = [l] /\ update_line (txt "b") (txt "t") l.
Proof. intro rt. eexists. split; [reflexivity|]. exists (txt "`id`='8'"), (txt "`id`='7'"). reflexivity. Qed.

(** * C33 at the command *)
(** False whenever a table name is given: then the database name makes no
    difference at all, whatever the files hold. *)
Theorem C33_ignored_refuted : forall fuel rt files sys opt db tb spare, tb <> [] ->
  FromRedoFile fuel rt files sys opt db tb spare = FromRedoFile fuel rt files sys opt [] tb spare.
Proof.
  intros fuel rt files sys opt db tb spare H. unfold FromRedoFile. apply wbind_ext. intros [tm [e|]]; [reflexivity|].
  rewrite (logs_same rt tm db tb [] tb); [reflexivity|]. intros k t _. now apply table_decides.
Qed.
Print Assumptions C33_ignored_refuted.
Example C33_ignored_case rt : ParseRedoLogs rt [(40, mkTable (txt "b") (txt "t") [] [] 0 0)] (txt "a") (txt "t") [] 0 = ParseRedoLogs rt [(40, mkTable (txt "b") (txt "t") [] [] 0 0)] [] (txt "t") [] 0
  /\ redo_filter (txt "a") (txt "t") (mkTable (txt "b") (txt "t") [] [] 0 0) = true /\ redo_filter (txt "a") [] (mkTable (txt "b") (txt "t") [] [] 0 0) = false.
Proof. repeat split. Qed.
