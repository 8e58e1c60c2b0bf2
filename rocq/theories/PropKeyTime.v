(** C135: the log, and tables with a date and time in the primary key. *)
From Coq Require Import String ZifyBool.
From Verif Require Import GoBase Utils Ibdata Redo SpecInno SpecText SpecSql SpecRecord SpecRow SpecTypes SpecRedo SpecUndo
  PBase PWire PRedo PStep PUndo PValue PLog PropValue PropRedo PropNull.
Local Open Scope string_scope.
Local Open Scope list_scope.
Local Open Scope Z_scope.

(** A key value that is not read: a DATETIME of up to four decimals (five to
    seven bytes), or a BIT of 33 to 56 bits *)
Definition unread (c : Column) (k : list Z) : Prop :=
  0 <= c_len c < 2 ^ 63 /\ c_type c = innodb_fixbinary /\
  ((c_mysql c = field_datetime /\ zlen k < 8) \/ (c_mysql c = field_bit /\ c_len c = zlen k /\ 5 <= zlen k <= 7)).
Lemma unread_panics rt c k extra : unread c k ->
  ParseDataCap rt (c_type c) (c_mysql c) k extra (zlen k) (fixed_of c) (c_unsigned c) (c_binary c) = ([], Panic).
Proof.
  intros [Hl [Ht H]]. change (@zlen) with (@len) in *. unfold ParseDataCap, ParseData, fixed_of. rewrite Ht. change (existsb (Z.eqb innodb_fixbinary) [5; 12; 13]) with false. cbv iota.
  change (innodb_fixbinary =? DATA_FLOAT) with false. change (innodb_fixbinary =? DATA_DOUBLE) with false. cbn [orb]. cbv zeta.
  change (innodb_fixbinary =? DATA_VARCHAR) with false. change (innodb_fixbinary =? DATA_CHAR) with false. change (innodb_fixbinary =? DATA_FIXBINARY) with true. cbv iota.
  destruct H as [[-> H]|[-> [-> H]]].
  - change (field_datetime =? MYSQL_TYPE_TIME) with false. change (field_datetime =? MYSQL_TYPE_TIMESTAMP) with false. change (field_datetime =? MYSQL_TYPE_DATETIME) with true. cbv iota.
    unfold ParseDateTime, GetTimeFormat. rewrite mrf8_short by (unfold len in H; lia). reflexivity.
  - change (field_bit =? MYSQL_TYPE_TIME) with false. change (field_bit =? MYSQL_TYPE_TIMESTAMP) with false. change (field_bit =? MYSQL_TYPE_DATETIME) with false. change (field_bit =? MYSQL_TYPE_BIT) with true. cbv iota.
    rewrite slice_to_ok by lia. rewrite firstn_all2 by (unfold len; lia). cbn [bind]. unfold GetUintValue. rewrite mrf8_short by (unfold len in H; lia).
    assert (len k = 5 \/ len k = 6 \/ len k = 7) as [->|[->| ->]] by lia; reflexivity.
Qed.

Section Unread.
Variable rt : runtime.
Variable tm : gomap Table.
Variable db tb : bytes.
Variable data : bytes.
Variable spare : nat.
Hypothesis Hb : all_bytes data.
Hypothesis Hs : len data < 2 ^ 32 - 1.
Let Hs' : len data < 2 ^ 62.
Proof. lia. Qed.
Local Notation At := (At data).
Ltac adv H := erewrite pb by (eapply r_advance; [exact Hs'|exact H|lia]); cbv beta; apply At_app in H; rewrite ?len_be in H.
Ltac fc H := match type of H with PStep.At _ _ (enc_compressed ?n ++ _) => pose proof (comp_len n) end;
  erewrite pb by (eapply r_comp; [exact Hb|exact Hs'|exact H|lia]); cbv beta iota; adv H.

Lemma keys_stop t c k : unread c k -> forall fields ns1 n ns2 ks1 ks2 shown m s d, map fd_name fields = ns1 ++ n :: ns2 ->
  key_shown rt t ns1 ks1 shown m -> column_named n (t_columns t) c ->
  Forall (fun k => zlen k < 2 ^ 32) (ks1 ++ k :: ks2) -> At s (flat_map enc_key (ks1 ++ k :: ks2) ++ d) ->
  exists s', undoKeys rt data spare t fields s = (m, s', Panic).
Proof.
  intros HU. induction fields as [|f fs IH]; intros ns1 n ns2 ks1 ks2 shown m s d HM HK HC HL H; [destruct ns1; discriminate HM|].
  cbn [map] in HM. destruct ns1 as [|n1 ns1]; cbn [app] in HM; injection HM as HN HM; inversion HK; subst; cbn [undoKeys].
  - cbn [app] in HL, H. pose proof (Forall_inv HL) as Hk. cbv beta in Hk. cbn [flat_map] in H. unfold enc_key at 1 in H. change (@zlen) with (@len) in *.
    rewrite <- !app_assoc in H. pose proof (len_nonneg k) as N. rewrite (key_column_is _ _ _ (or_introl HC)). fc H.
    erewrite pb by reflexivity. cbv beta. pose proof (At_range data _ _ H) as R. rewrite !len_app in R. pose proof (len_nonneg (flat_map enc_key ks2)). pose proof (len_nonneg d).
    rewrite u64_id by lia.
    erewrite pb.
    2:{ unfold plift, slice_cap. destruct H as [pre [E1 E2]]. rewrite E1, <- app_assoc, <- (app_assoc k), (slice_app pre k) by lia. reflexivity. }
    cbv beta. rewrite fixed_is by (destruct HU; assumption).
    eexists. apply pbx. unfold pw. pose proof (fun ex => unread_panics rt c k ex HU) as HP. change (@zlen) with (@len) in HP. rewrite HP. reflexivity.
  - match goal with H : key_column _ _ ?c |- _ => rename c into col; rename H into Hcn end.
    match goal with H : ParseData _ _ _ _ _ _ _ _ = _ |- _ => rename H into HP end.
    cbn [app] in HL, H. inversion HL as [|? ? Hk Hks]; subst. cbn [flat_map] in H. unfold enc_key at 1 in H. change (@zlen) with (@len) in *.
    rewrite <- !app_assoc in H. match type of H with PStep.At _ _ (enc_compressed (len ?x) ++ _) => rename x into k1 end. pose proof (len_nonneg k1) as N. rewrite (key_column_is _ _ _ Hcn). fc H.
    erewrite pb by reflexivity. cbv beta. pose proof (At_range data _ _ H) as R. rewrite !len_app in R. match type of R with context [len (flat_map enc_key ?l)] => pose proof (len_nonneg (flat_map enc_key l)) end. pose proof (len_nonneg d).
    rewrite u64_id by lia.
    erewrite pb.
    2:{ unfold plift, slice_cap. destruct H as [pre [E1 E2]]. rewrite E1, <- app_assoc, <- (app_assoc k1), (slice_app pre k1) by lia. reflexivity. }
    cbv beta. rewrite fixed_is by assumption.
    erewrite pbo by (unfold pw; rewrite (parse_cap _ _ _ _ _ _ _ _ _ _ _ HP); reflexivity). cbv beta iota. adv H.
    edestruct IH as [s' E]; [eassumption|eassumption|exact HC|exact Hks|exact H|]. unfold pbind. rewrite E. cbn [fst snd]. exists s'. reflexivity.
Qed.

Lemma undo_stop u t c k ns1 n ns2 ks1 ks2 shown m s d : At s (be 2 (zlen (enc_undo u)) ++ enc_undo u ++ d) -> undo_ok u -> undo_room u (len d) ->
  mget tm (un_table u) = Some t -> key_names t (ns1 ++ n :: ns2) -> un_keys u = ks1 ++ k :: ks2 ->
  key_shown rt t ns1 ks1 shown m -> column_named n (t_columns t) c -> unread c k ->
  mlogUndoInsert rt tm db tb data spare s = (m, s + 2 + len (enc_undo u), Ok None).
Proof.
  intros H Hok Hd Hg HN HK HS HC HU. pose proof Hok as Hok2. destruct Hok2 as [_ [_ [_ [_ [_ [_ [_ [Hks [Hch [Hcf Hlen]]]]]]]]]].
  change (@zlen) with (@len) in *. pose proof (len_nonneg (enc_undo u)) as N0.
  unfold mlogUndoInsert. erewrite pb by (eapply r_read2; [exact H|lia]). cbv beta. adv H. change (Z.of_nat 2) with 2 in H.
  erewrite pb by reflexivity. cbv beta. unfold precover.
  pose proof (At_range data _ _ H) as R. rewrite len_app in R.
  destruct (undo_front rt tm db tb data spare Hb Hs u (s + 2) d (s + 2) (len (enc_undo u)) H Hok Hd eq_refl eq_refl) as [s1 [Es1 [H1 ->]]].
  assert (ER : skipn (List.length (enc_undo_head u)) (enc_undo u) = flat_map enc_key (un_keys u) ++ (if (un_type u =? UNDO_UPDATE) || (un_type u =? UNDO_UPDATE_DELETED)
      then enc_compressed (len (un_changes u)) ++ flat_map enc_field (un_changes u) else []) ++ un_more u) by (unfold enc_undo; apply skipn_app_len).
  rewrite ER, HK, <- app_assoc in H1. clear ER. unfold getTableByTableID. rewrite Hg. rewrite HK in Hks.
  destruct (keys_stop t c k HU (getPrimaryKey t) ns1 n ns2 ks1 ks2 shown m s1 _ (primary_fields t _ HN) HS HC Hks H1) as [s' E].
  unfold pbind at 1. rewrite E. pose proof (len_nonneg d). unfold setpos, pret, pbind. cbn [fst snd app]. rewrite !app_nil_r. rewrite u64_id by lia. reflexivity.
Qed.
Lemma step_stop single sp pg u t c k ns1 n ns2 ks1 ks2 shown m s d : At s (enc_entry (ERecord single sp pg (BUndo (enc_undo u))) ++ d) -> word sp -> word pg -> undo_ok u -> undo_room u (len d) ->
  mget tm (un_table u) = Some t -> key_names t (ns1 ++ n :: ns2) -> un_keys u = ks1 ++ k :: ks2 ->
  key_shown rt t ns1 ks1 shown m -> column_named n (t_columns t) c -> unread c k ->
  redo_step rt tm db tb data spare s = (m, s + len (enc_entry (ERecord single sp pg (BUndo (enc_undo u)))), Ok None).
Proof.
  intros H W1 W2 Hu Hr Hg HN HK HS HC HU. assert (Hbo : body_ok (BUndo (enc_undo u))) by (cbn; destruct Hu; tauto).
  destruct (front rt tm db tb data spare Hb ltac:(lia) _ _ _ _ _ _ H W1 W2 Hbo) as [s' [Es [H' ->]]].
  cbn [enc_body] in H'. rewrite <- app_assoc in H'.
  pose proof (undo_stop u t c k ns1 n ns2 ks1 ks2 shown m s' d H' Hu Hr Hg HN HK HS HC HU) as E.
  change (redo_switch rt tm db tb data spare (type_of (BUndo (enc_undo u)))) with (dropped (mlogUndoInsert rt tm db tb data spare)).
  unfold dropped. erewrite pbo by exact E. cbn [pret fst snd]. rewrite app_nil_r. apply trip.
  rewrite Es. cbn [enc_entry enc_body]. rewrite len_cons, !len_app, len_be. unfold zlen, len. lia.
Qed.
End Unread.

(** A log with the record [u] of a change between the entries [es1] and
    [es2], which print [l1] and [l2] *)
Definition record_in_log rt tm want_db want_tb (fs : list log_file) es1 es2 tail l1 l2 u : Prop :=
  exists single space page,
  let here := ERecord single space page (BUndo (enc_undo u)) in
  let rest := zlen (flat_map enc_entry es2) + zlen tail in
  Forall file_ok fs
  /\ flat_map (fun f => payloads (lf_blocks f)) fs = flat_map enc_entry (es1 ++ here :: es2) ++ tail
  /\ zlen (flat_map enc_entry (es1 ++ here :: es2) ++ tail) < 2 ^ 32 - 1 /\ zlen tail < 5
  /\ (forall k t, mget tm k = Some t -> want_db = [] \/ want_tb = [] \/ want_db = t_db t \/ want_tb <> t_name t)
  /\ log_lines rt tm want_db want_tb (zlen (enc_entry here) + rest) es1 l1 /\ log_lines rt tm want_db want_tb (zlen tail) es2 l2
  /\ word space /\ word page /\ undo_ok u /\ undo_room u rest.
(** False: an update of a row whose key holds a DATETIME of up to four decimals
    (or a BIT of 33 to 56 bits) is not recovered.  Of the record itself nothing
    is printed, but the remarks on the DECIMALs before that key column; the
    lines of the other records stay.  It does not matter what the record
    changed, nor what is asked for. *)
Theorem C135_key_refuted : forall rt tm want_db want_tb spare fs es1 es2 tail l1 l2 u t ns1 n ns2 ks1 k ks2 shown m c,
  record_in_log rt tm want_db want_tb fs es1 es2 tail l1 l2 u ->
  mget tm (un_table u) = Some t -> key_names t (ns1 ++ n :: ns2) -> un_keys u = ks1 ++ k :: ks2 ->
  key_shown rt t ns1 ks1 shown m -> column_named n (t_columns t) c -> unread c k ->
  ParseRedoLogs rt tm want_db want_tb (map (fun f => Some (log_events f)) fs) spare = (l1 ++ m ++ l2, Ok None).
Proof.
  intros rt tm db tb spare fs es1 es2 tail l1 l2 u t ns1 n ns2 ks1 k ks2 shown m c [single [sp [pg [Hf [E [Hl [Ht [HF [H1 [H2 [W1 [W2 [Hu Hr]]]]]]]]]]]]] Hg HN HK HS HC HU.
  rewrite parse_files by assumption. pose proof (logs_bytes fs Hf) as Hb. rewrite E in *. change (@zlen) with (@len) in *.
  set (here := ERecord single sp pg (BUndo (enc_undo u))) in *. set (data := flat_map enc_entry (es1 ++ here :: es2) ++ tail) in *.
  assert (ED : data = flat_map enc_entry es1 ++ enc_entry here ++ flat_map enc_entry es2 ++ tail) by (unfold data; rewrite flat_map_app; cbn [flat_map]; now rewrite <- !app_assoc).
  pose proof (undo_entry_len tm db tb HF single sp pg u) as L5. fold here in L5. pose proof (len_nonneg (flat_map enc_entry es2)). pose proof (len_nonneg tail).
  destruct (run_to rt tm db tb data spare Hb Hl HF (enc_entry here ++ flat_map enc_entry es2 ++ tail) ltac:(rewrite !len_app; lia) es1 l1) with (s := 0) (fuel := S (List.length data))
    as [fuel' [o [s' [r [HA [Hfu [E1 E2]]]]]]].
  - rewrite !len_app. exact H1.
  - exists []. split; [exact ED|reflexivity].
  - unfold len. lia.
  - unfold parseRedoBlockData. rewrite E2. rewrite Z.add_0_l in *.
    pose proof (step_stop rt tm db tb data spare Hb Hl single sp pg u t c k ns1 n ns2 ks1 ks2 shown m _ _ HA W1 W2 Hu ltac:(rewrite len_app; exact Hr) Hg HN HK HS HC HU) as E3.
    fold here in E3. pose proof (At_range data _ _ HA) as [R1 R2]. rewrite !len_app in R2. destruct fuel' as [|f]; [lia|].
    rewrite (loop_step rt tm db tb data spare Hl HF f _ _ _ R1 ltac:(lia) E3) in E1. apply At_app in HA.
    destruct (run_log rt tm db tb data spare Hb Hl HF tail es2 l2 H2 _ f HA ltac:(lia)) as [rest [s2 [r2 [E4 K]]]]. destruct (K Ht) as [-> ->].
    rewrite E4, app_nil_r in E1. cbn [fst snd] in E1. injection E1 as <- <- <-. reflexivity.
Qed.
Print Assumptions C135_key_refuted.

Lemma keys_app rt t ns1 ns2 ks1 ks2 key1 key2 m1 m2 : key_shown rt t ns1 ks1 key1 m1 -> key_shown rt t ns2 ks2 key2 m2 ->
  key_shown rt t (ns1 ++ ns2) (ks1 ++ ks2) (key1 ++ key2) (m1 ++ m2).
Proof. induction 1 as [|n ns k ks c v bin x l m H1 H2 H3 H4 _ IH]; intro H; [exact H|]. cbn [app]. rewrite <- app_assoc. exact (key_cons rt t n _ k _ c v bin x _ _ H1 H2 H3 H4 (IH H)). Qed.
(** Full statement: the statement of every update of such a table is printed
    and names its row.  Proved: with five or six decimals the statement is
    printed, in the years 1991 to 2099; the row it names is the one of the
    whole second.  So it is right if the decimals are zero.  Missing (false):
    fewer decimals, and decimals that are not zero. *)
Theorem C135_decimals_partial : forall rt tm want_db want_tb spare fs es1 es2 tail l1 l2 u t ns1 n ns2 ks1 ks2 key1 key2 m1 m2 c y mo d h mi s digits f old m,
  record_in_log rt tm want_db want_tb fs es1 es2 tail l1 l2 u ->
  un_type u = UNDO_UPDATE -> mget tm (un_table u) = Some t -> requested want_db want_tb (t_db t) (t_name t) ->
  key_names t (ns1 ++ n :: ns2) -> column_named n (t_columns t) c -> c_type c = innodb_fixbinary -> c_mysql c = field_datetime -> 0 <= c_len c < 2 ^ 63 ->
  1990 < y < 2100 -> 1 <= mo <= 12 -> 1 <= d <= 31 -> 0 <= h <= 23 -> 0 <= mi <= 59 -> 0 <= s <= 59 -> digits = 5 \/ digits = 6 ->
  un_keys u = ks1 ++ store_datetime_frac y mo d h mi s digits f :: ks2 -> key_shown rt t ns1 ks1 key1 m1 -> key_shown rt t ns2 ks2 key2 m2 ->
  old_shown rt t (zlen (flat_map enc_entry es2) + zlen tail) (un_changes u) old m ->
  exists ty tmo td th tmi ts,
  ParseRedoLogs rt tm want_db want_tb (map (fun f => Some (log_events f)) fs) spare
  = (l1 ++ m1 ++ m2 ++ m ++ [undo_statement (t_db t) (t_name t) old (key1 ++ (n, ty ++ txt "-" ++ tmo ++ txt "-" ++ td ++ txt " " ++ th ++ txt ":" ++ tmi ++ txt ":" ++ ts) :: key2)] ++ l2, Ok None)
  /\ dec_text 2 y ty /\ dec_text 2 mo tmo /\ dec_text 2 d td /\ dec_text 2 h th /\ dec_text 2 mi tmi /\ dec_text 2 s ts.
Proof.
  intros rt tm db tb spare fs es1 es2 tail l1 l2 u t ns1 n ns2 ks1 ks2 key1 key2 m1 m2 c y mo d h mi s digits f old m [single [sp [pg [Hf [E [Hl [Ht [HF [H1 [H2 [W1 [W2 [Hu Hr]]]]]]]]]]]]] Hy Hg HR HN HC Ct Cm Cl Y Mo D Hh Mi Se Hdi HK K1 K2 HO.
  set (k := store_datetime_frac y mo d h mi s digits f) in *.
  assert (EF : store_frac digits f = be 3 (frac_num digits f)) by (unfold store_frac, frac_size; destruct Hdi as [->| ->]; reflexivity).
  destruct (C15_datetime_partial rt y mo d h mi s (store_frac digits f) [] (zlen k) (fixed_of c) (c_unsigned c) (c_binary c) Y Mo D Hh Mi Se) as [ty [tmo [td [th [tmi [ts [EP HT]]]]]]].
  - rewrite EF. apply be_bytes.
  - rewrite EF. now rewrite len_be.
  - rewrite app_nil_r in EP. exists ty, tmo, td, th, tmi, ts. split; [|exact HT].
    set (here := ERecord single sp pg (BUndo (enc_undo u))) in *.
    apply (C68_log_partial rt tm db tb spare fs (es1 ++ here :: es2) tail); try assumption. apply log_lines_app.
    + replace (m1 ++ m2 ++ m ++ [undo_statement (t_db t) (t_name t) old (key1 ++ (n, ty ++ txt "-" ++ tmo ++ txt "-" ++ td ++ txt " " ++ th ++ txt ":" ++ tmi ++ txt ":" ++ ts) :: key2)] ++ l2)
        with (((m1 ++ m2) ++ m ++ [undo_statement (t_db t) (t_name t) old (key1 ++ (n, ty ++ txt "-" ++ tmo ++ txt "-" ++ td ++ txt " " ++ th ++ txt ":" ++ tmi ++ txt ":" ++ ts) :: key2)]) ++ l2) by (now rewrite <- !app_assoc).
      apply ll_undo; try assumption. apply (ul_update rt tm db tb _ u t (ns1 ++ n :: ns2)); try assumption. rewrite HK. apply keys_app; [exact K1|].
      eapply key_quiet; [exact HC|exact Cl| |left; apply text_str|exact K2]. rewrite Ct, Cm. exact EP.
    + replace (zlen (flat_map enc_entry (here :: es2)) + len tail) with (zlen (enc_entry here) + (zlen (flat_map enc_entry es2) + zlen tail)); [exact H1|].
      cbn [flat_map]. unfold zlen, len. rewrite app_length. lia.
Qed.
Print Assumptions C135_decimals_partial.
(** A table with the key (id, at), a log of one of its updates between two of
    another table's; and the same with six decimals *)
Definition dated_table (len : Z) : Table :=
  mkTable (txt "b") (txt "e") [uint_col (txt "id"); mkColumn (txt "at") 3 12 0 len VNil false false false 0; uint_col (txt "a")]
    [(1, mkIndex 1 (txt "PRIMARY") 2 3 [mkField 0 (txt "id"); mkField 1 (txt "at")])] 0 0.
Definition dated_undo (at_ : list Z) : undo := mkUndo UNDO_UPDATE 0 false 3 41 0 77 99 [store_uint 4 7; at_] [(2, Some (store_uint 4 300))] [0; 5].
Definition dated_tm (len : Z) : gomap Table := (41, dated_table len) :: sample_tm (txt "b").
Definition dated_data (at_ : list Z) : list Z :=
  flat_map enc_entry [ERecord false 0 5 (BUndo (enc_undo sample_update)); ERecord false 0 5 (BUndo (enc_undo (dated_undo at_))); ERecord false 0 5 (BUndo (enc_undo sample_update))].
Example C135_case rt :
  parseRedoBlockData rt (dated_tm 5) [] [] (dated_data (store_datetime 2019 2 28 23 59 7)) 0 = ([sample_line (txt "b"); sample_line (txt "b")], Ok None)
  /\ parseRedoBlockData rt (dated_tm 8) [] [] (dated_data (store_datetime_frac 2019 2 28 23 59 7 6 123456)) 0
     = ([sample_line (txt "b"); txt "update `b`.`e` set `a`='300' where `id`='7' and `at`='2019-02-28 23:59:07';"; sample_line (txt "b")], Ok None).
Proof. split; reflexivity. Qed.
Definition dated_file : log_file :=
  let p := dated_data (store_datetime 2019 2 28 23 59 7) in
  mkLogFile (lf_header sample_file) (lf_cp1 sample_file) (lf_unused sample_file) (lf_cp2 sample_file) [block_with (12 + len p) p].
Definition undo_entry (u : undo) : entry := ERecord false 0 5 (BUndo (enc_undo u)).
Lemma sample_undo_ok : undo_ok sample_update.
Proof.
  unfold undo_ok. cbn [sample_update sample_undo un_type un_cmpl un_no un_table un_info un_trx un_roll un_keys un_changes]. split; [cbn; unfold UNDO_INSERT, UNDO_UPDATE; tauto|].
  do 6 (split; [lia|]). split; [constructor; [reflexivity|constructor]|]. split; [reflexivity|].
  split; [constructor; [unfold field_ok; cbn; unfold zlen; cbn; lia|constructor]|]. reflexivity.
Qed.
Lemma same_lines rt tm tm' db tb a u l : mget tm (un_table u) = mget tm' (un_table u) -> undo_lines rt tm db tb a u l -> undo_lines rt tm' db tb a u l.
Proof. intros E H. destruct H; first [apply ul_foreign; rewrite <- E; assumption|apply ul_late; assumption|eapply ul_other; try eassumption; rewrite <- E; eassumption|eapply ul_unwanted; try eassumption; rewrite <- E; eassumption|eapply ul_update; try eassumption; rewrite <- E; eassumption]. Qed.
Example C135_key_case rt : 
  record_in_log rt (dated_tm 5) [] [] [dated_file] [undo_entry sample_update] [undo_entry sample_update] [] [sample_line (txt "b")] [sample_line (txt "b")] (dated_undo (store_datetime 2019 2 28 23 59 7))
  /\ ParseRedoLogs rt (dated_tm 5) [] [] [Some (log_events dated_file)] 0 = ([sample_line (txt "b"); sample_line (txt "b")], Ok None).
Proof.
  assert (SL : forall n, 0 <= n -> undo_lines rt (dated_tm 5) [] [] n sample_update [sample_line (txt "b")]).
  { intros n Hn. apply (same_lines rt (sample_tm (txt "b"))); [reflexivity|]. exact (sample_lines rt [] [] (txt "b") n [0; 5] Hn). }
  assert (R : record_in_log rt (dated_tm 5) [] [] [dated_file] [undo_entry sample_update] [undo_entry sample_update] [] [sample_line (txt "b")] [sample_line (txt "b")] (dated_undo (store_datetime 2019 2 28 23 59 7))).
  { exists false, 0, 5. cbv zeta. split.
    - constructor; [|constructor]. destruct sample_file_ok as [H1 [H2 [H3 [H4 [H5 [H6 _]]]]]]. unfold file_ok, dated_file. cbn [lf_header lf_cp1 lf_unused lf_cp2 lf_blocks].
      do 6 (split; [assumption|]). constructor; [|constructor]. apply block_check; reflexivity.
    - split; [reflexivity|]. split; [vm_compute; reflexivity|]. split; [vm_compute; reflexivity|]. split; [intros; now left|].
      split; [|split; [|split; [unfold word; lia|split; [unfold word; lia|split]]]].
      + change [sample_line (txt "b")] with ([sample_line (txt "b")] ++ []). apply ll_undo; [unfold word; lia|unfold word; lia|exact sample_undo_ok|apply SL; vm_compute; discriminate|constructor].
      + change [sample_line (txt "b")] with ([sample_line (txt "b")] ++ []). apply ll_undo; [unfold word; lia|unfold word; lia|exact sample_undo_ok|apply SL; vm_compute; discriminate|constructor].
      + unfold undo_ok. cbn [dated_undo un_type un_cmpl un_no un_table un_info un_trx un_roll un_keys un_changes]. split; [cbn; unfold UNDO_INSERT, UNDO_UPDATE; tauto|].
        do 6 (split; [lia|]). split; [repeat constructor|]. split; [reflexivity|].
        split; [constructor; [unfold field_ok; cbn; unfold zlen; cbn; lia|constructor]|]. reflexivity.
      + apply update_room; [reflexivity|discriminate|discriminate|cbn; lia|vm_compute; discriminate]. }
  split; [exact R|].
  apply (C135_key_refuted rt (dated_tm 5) [] [] 0 [dated_file] _ _ _ _ _ _ (dated_table 5) [txt "id"] (txt "at") [] [store_uint 4 7] (store_datetime 2019 2 28 23 59 7) [] [(txt "id", txt "7")] []
    (mkColumn (txt "at") 3 12 0 5 VNil false false false 0) R); try reflexivity.
  - exists [], 1, (mkIndex 1 (txt "PRIMARY") 2 3 [mkField 0 (txt "id"); mkField 1 (txt "at")]), []. repeat split; [constructor|]. left. split; reflexivity.
  - eapply key_quiet; [apply cn_here; reflexivity|cbn; lia| |left; apply text_uint; exact (fmt_d_spec 7)|constructor]. reflexivity.
  - apply cn_next; [discriminate|]. now apply cn_here.
  - unfold unread. cbn. unfold zlen. cbn. split; [lia|]. split; [reflexivity|]. left. split; [reflexivity|lia].
Qed.
