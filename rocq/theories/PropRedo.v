(** Redo log properties: C33, C60-C71, C76-C79. *)
From Coq Require Import ZifyBool.
From Verif Require Import GoBase Utils Ibdata Redo SpecInno SpecText SpecSql SpecRecord SpecRow SpecRedo SpecUndo PBase PWire PRedo PStep PUndo PValue PLog PropValue.
Local Open Scope list_scope.
Ltac Zify.zify_post_hook ::= Z.div_mod_to_equations.

(** * A sample dictionary and undo record *)
Definition uint_col (n : bytes) : Column := mkColumn n 6 3 0 4 VNil false false true 0.
Definition sample_table (db : bytes) : Table :=
  mkTable db (txt "t") [uint_col (txt "id"); uint_col (txt "a")] [(1, mkIndex 1 (txt "PRIMARY") 1 3 [mkField 0 (txt "id")])] 0 0.
Definition sample_tm (db : bytes) : gomap Table := [(40, sample_table db)].
Definition sample_undo (ty : Z) (changes : list (Z * option (list Z))) : undo := mkUndo ty 0 false 3 40 0 77 99 [store_uint 4 7] changes [0; 5].
Definition sample_update : undo := sample_undo UNDO_UPDATE [(1, Some (store_uint 4 300))].
Definition sample_line (db : bytes) : bytes := txt "update `" ++ db ++ txt "`.`t` set `a`='300' where `id`='7';".
Definition sample_log : list entry :=
  [ECheckpoint 123456; ERecord false 1 2 (BNum 4 38 70000); ERecord false 0 5 (BUndo (enc_undo sample_update)); ERecord true 3 300 (BInsert (Some (mkDesc 1 [4; 4])) 100 (mkIns None [1; 2; 3])); EEnd].

Definition update_with (more : list Z) : undo := mkUndo UNDO_UPDATE 0 false 3 40 0 77 99 [store_uint 4 7] [(1, Some (store_uint 4 300))] more.
Lemma sample_lines rt want_db want_tb db n more : 0 <= n -> undo_lines rt (sample_tm db) want_db want_tb n (update_with more) (if (beq want_db [] || beq want_db db) && (beq want_tb [] || beq want_tb (txt "t")) then [sample_line db] else []).
Proof.
  intro Hn. assert (RM : undo_room (update_with more) n) by (apply update_room; [reflexivity|discriminate|discriminate|cbn; lia|exact Hn]).
  assert (K : key_names (sample_table db) [txt "id"]).
  { exists [], 1, (mkIndex 1 (txt "PRIMARY") 1 3 [mkField 0 (txt "id")]), []. repeat split; [constructor|]. left. split; reflexivity. }
  assert (S1 : key_shown rt (sample_table db) [txt "id"] (un_keys sample_update) [(txt "id", txt "7")] []).
  { eapply key_quiet; [apply cn_here; reflexivity|cbn; lia| |left; apply text_uint; exact (fmt_d_spec 7)|constructor]. reflexivity. }
  assert (S2 : old_shown rt (sample_table db) n (un_changes sample_update) [(txt "a", Some (txt "300"))] []).
  { eapply (old_quiet rt (sample_table db) n 1 (store_uint 4 300) (uint_col (txt "a")) (txt "300") [] [] []); [reflexivity|cbn; lia| |constructor].
    intros after _ _. exists (VUint 300), false. split; [|apply text_uint; exact (fmt_d_spec 300)]. apply (C10_unsigned_int rt 3 4 300 after false); [cbn; tauto|discriminate|discriminate|cbn; lia]. }
  assert (R : forall a b : bytes, beq a b = true <-> a = b) by (intros; apply beq_eq).
  destruct ((beq want_db [] || beq want_db db) && (beq want_tb [] || beq want_tb (txt "t"))) eqn:E.
  - replace (sample_line db) with (undo_statement (t_db (sample_table db)) (t_name (sample_table db)) [(txt "a", Some (txt "300"))] [(txt "id", txt "7")]) by reflexivity.
    apply (ul_update rt (sample_tm db) want_db want_tb n (update_with more) (sample_table db) _ _ _ [] [] eq_refl RM eq_refl K S1 S2).
    apply andb_true_iff in E as [E1 E2]. apply orb_true_iff in E1, E2. rewrite !R in E1, E2. unfold requested. cbn. tauto.
  - apply (ul_unwanted rt (sample_tm db) want_db want_tb n (update_with more) (sample_table db) _ _ _ [] [] eq_refl RM eq_refl K S1 S2). unfold requested. cbn. intros [A B].
    assert (X : (beq want_db [] || beq want_db db) && (beq want_tb [] || beq want_tb (txt "t")) = true); [|congruence].
    apply andb_true_iff. rewrite !orb_true_iff, !R. tauto.
Qed.

(** The bytes of the sample log, and of a whole log file holding it *)
Definition sample_data : bytes := flat_map enc_entry sample_log.
Lemma sample_log_lines rt want_db want_tb db : log_lines rt (sample_tm db) want_db want_tb 0 sample_log
  ((if (beq want_db [] || beq want_db db) && (beq want_tb [] || beq want_tb (txt "t")) then [sample_line db] else []) ++ []).
Proof.
  unfold sample_log. apply ll_checkpoint; [lia|]. apply ll_record; [unfold word; lia|unfold word; lia|cbn; unfold short, word; lia|exact I|vm_compute; discriminate|].
  apply ll_undo; [unfold word; lia|unfold word; lia| |apply (sample_lines rt want_db want_tb db _ [0; 5]); unfold zlen; lia|].
  - unfold undo_ok. cbn [sample_update sample_undo un_type un_cmpl un_no un_table un_info un_trx un_roll un_keys un_changes]. split; [cbn; unfold UNDO_INSERT, UNDO_UPDATE; tauto|].
    do 6 (split; [lia|]). split; [constructor; [reflexivity|constructor]|]. split; [reflexivity|].
    split; [constructor; [unfold field_ok; cbn; unfold zlen; cbn; lia|constructor]|]. reflexivity.
  - apply ll_record; [unfold word; lia|unfold word; lia| |exact I|vm_compute; discriminate|apply ll_end, ll_nil].
    cbn. unfold short, desc_ok, insertion_ok. cbn. unfold zlen. cbn. lia.
Qed.
Lemma byte_list (l : bytes) : forallb (fun b => (0 <=? b) && (b <? 256)) l = true -> all_bytes l.
Proof. intro H. apply Forall_forall. intros x Hx. rewrite forallb_forall in H. specialize (H x Hx). unfold is_byte. lia. Qed.

(** * C33 *)
(** False: with a table name given the database is not looked at.  A request
    for a.t prints the update of b.t. *)
Theorem C33_filter_refuted : forall rt,
  ~ requested (txt "a") (txt "t") (txt "b") (txt "t")
  /\ parseRedoBlockData rt (sample_tm (txt "b")) (txt "a") (txt "t") sample_data 0 = ([sample_line (txt "b")], Ok None)
  /\ log_lines rt (sample_tm (txt "b")) (txt "a") (txt "t") 0 sample_log [].
Proof.
  intro rt. split; [intros [[H|H] _]; discriminate|]. split; [reflexivity|].
  exact (sample_log_lines rt (txt "a") (txt "t") (txt "b")).
Qed.
Print Assumptions C33_filter_refuted.
(** Full statement: for all names the update's statement is printed if and only
    if the table is requested.  Proved: unless both names are given, the
    table's name is the requested one and its database is not.  Missing
    (false): that case. *)
Theorem C33_filter_partial : forall rt tm want_db want_tb spare pre single space page u d t names key old m m',
  let e := ERecord single space page (BUndo (enc_undo u)) in
  let data := pre ++ enc_entry e ++ d in
  all_bytes data -> len data < 2 ^ 32 - 1 -> word space -> word page -> undo_ok u -> undo_room u (len d) ->
  un_type u = UNDO_UPDATE -> mget tm (un_table u) = Some t ->
  key_names t names -> key_shown rt t names (un_keys u) key m -> old_shown rt t (len d) (un_changes u) old m' ->
  want_db = [] \/ want_tb = [] \/ want_db = t_db t \/ want_tb <> t_name t ->
  (requested want_db want_tb (t_db t) (t_name t) /\
     redo_step rt tm want_db want_tb data spare (len pre) = (m ++ m' ++ [undo_statement (t_db t) (t_name t) old key], len pre + len (enc_entry e), Ok None))
  \/ (~ requested want_db want_tb (t_db t) (t_name t) /\
     redo_step rt tm want_db want_tb data spare (len pre) = (m ++ m', len pre + len (enc_entry e), Ok None)).
Proof.
  intros rt tm want_db want_tb spare pre single space page u d t names key old m m' e data Hb Hs H1 H2 Hu Hd Hty Ht K1 K2 K3 HF.
  assert (HA : At data (len pre) (enc_entry e ++ d)) by (exists pre; split; reflexivity).
  assert (HF' : forall t', mget tm (un_table u) = Some t' -> want_db = [] \/ want_tb = [] \/ want_db = t_db t' \/ want_tb <> t_name t') by (intros t' E; rewrite Ht in E; injection E as <-; exact HF).
  assert (Hstep : forall lines, undo_lines rt tm want_db want_tb (len d) u lines -> redo_step rt tm want_db want_tb data spare (len pre) = (lines, len pre + len (enc_entry e), Ok None)).
  { intros lines HL. apply (step_undo_at rt tm want_db want_tb data spare Hb Hs) with (d := d); try assumption. intros _. exact HF'. }
  destruct (requested_dec want_db want_tb (t_db t) (t_name t)) as [R|R]; [left|right]; (split; [exact R|]); apply Hstep.
  - eapply ul_update; eassumption.
  - eapply ul_unwanted; eassumption.
Qed.
Print Assumptions C33_filter_partial.
Example C33_case rt :
  parseRedoBlockData rt (sample_tm (txt "b")) (txt "b") (txt "t") sample_data 0 = ([sample_line (txt "b")], Ok None)
  /\ parseRedoBlockData rt (sample_tm (txt "b")) (txt "b") [] sample_data 0 = ([sample_line (txt "b")], Ok None)
  /\ parseRedoBlockData rt (sample_tm (txt "b")) (txt "a") [] sample_data 0 = ([], Ok None)
  /\ parseRedoBlockData rt (sample_tm (txt "b")) (txt "b") (txt "u") sample_data 0 = ([], Ok None).
Proof. repeat split. Qed.

(** * C60 *)
Theorem C60_blocks : forall fs, Forall file_ok fs ->
  redoFiles (map (fun f => Some (log_events f)) fs) = Ok (inl (flat_map (fun f => payloads (lf_blocks f)) fs))
  /\ forall rt tm want_db want_tb spare,
     ParseRedoLogs rt tm want_db want_tb (map (fun f => Some (log_events f)) fs) spare
     = parseRedoBlockData rt tm want_db want_tb (flat_map (fun f => payloads (lf_blocks f)) fs) spare.
Proof. intros fs H. split; [now apply files_read|]. intros. now apply parse_files. Qed.
Print Assumptions C60_blocks.
(** A block with some payload, and a file of two full blocks, a part-filled one
    and an empty one *)
Definition block_with (n : Z) (p : bytes) : bytes := be 4 1 ++ be 2 n ++ be 2 12 ++ be 4 0 ++ p ++ zeros (Z.to_nat (500 - len p)).
Definition sample_file : log_file :=
  mkLogFile (be 4 1 ++ be 4 0 ++ be 8 8704 ++ txt "MySQL 5.7" ++ zeros (Z.to_nat 487)) (zeros (Z.to_nat 512)) (zeros (Z.to_nat 512)) (zeros (Z.to_nat 512))
    [block_with 512 (repeat 31 (Z.to_nat 496)); block_with (12 + len sample_data) sample_data; block_with 0 []; block_with 16 [1; 2; 3; 4]].
Lemma block_check b : len b = 512 -> forallb (fun b => (0 <=? b) && (b <? 256)) b = true ->
  (block_len b =? 0) || ((12 <=? block_len b) && (block_len b <=? 508)) || (block_len b =? 512) = true -> log_block b.
Proof. intros H1 H2 H3. split; [exact H1|]. split; [exact (byte_list b H2)|]. lia. Qed.
Lemma sample_file_ok : file_ok sample_file.
Proof.
  unfold file_ok. split; [reflexivity|]. split; [|split; [apply byte_list; reflexivity|]; do 3 (split; [reflexivity|])].
  { assert (E : existsb (Z.eqb 0) (skipn 16 (lf_header sample_file)) = true) by reflexivity. apply existsb_exists in E as [z [E1 E2]]. apply Z.eqb_eq in E2. now subst. }
  unfold lf_blocks, sample_file. constructor; [apply block_check; reflexivity|]. constructor; [apply block_check; reflexivity|]. constructor; [apply block_check; reflexivity|]. constructor; [apply block_check; reflexivity|]. constructor.
Qed.
Example C60_case : payloads (lf_blocks sample_file) = repeat 31 (Z.to_nat 496) ++ sample_data
  /\ redoFiles [Some (log_events sample_file); Some (log_events sample_file)] = Ok (inl (repeat 31 (Z.to_nat 496) ++ sample_data ++ repeat 31 (Z.to_nat 496) ++ sample_data)).
Proof. split; reflexivity. Qed.

(** * C61 *)
Definition bad_length (n : Z) : Prop := 1 <= n <= 11 \/ 517 <= n.
Theorem C61_block_length_refuted : forall n, 0 <= n < 65536 -> bad_length n -> forall p f, len p = 500 -> all_bytes p ->
  redoBlocks (IoBytes (block_with n p) :: f) = Panic.
Proof.
  intros n Hn Hbad p f Hp Hbp.
  assert (E : len (block_with n p) = 512) by (unfold block_with; rewrite !len_app, !len_be; rewrite Hp; reflexivity).
  assert (B : all_bytes (block_with n p)).
  { unfold block_with. rewrite !all_bytes_app. do 4 (split; [apply be_bytes|]). split; [exact Hbp|]. rewrite Hp. constructor. }
  assert (L : block_len (block_with n p) = n).
  { unfold block_len, block_with. change (skipn 4 (be 4 1 ++ ?x)) with x. rewrite firstn_app. rewrite firstn_all2 by (rewrite be_length; lia). rewrite be_length. cbn [Nat.sub firstn]. rewrite app_nil_r.
    apply be_val_be_small. exact Hn. }
  rewrite block_case by assumption. rewrite L. unfold bad_length in Hbad. replace (n =? 0) with false by lia. replace ((12 <=? n) && (n <=? 516)) with false by lia. reflexivity.
Qed.
Print Assumptions C61_block_length_refuted.
Example C61_refuted_case : redoBlocks [IoBytes (block_with 5 (zeros (Z.to_nat 500)))] = Panic.
Proof. reflexivity. Qed.
(** Full statement: no block makes the reader crash.  Proved: exactly which do;
    all others are read.  Missing (false): lengths 1 to 11 and above 516. *)
Theorem C61_block_length_partial : forall bs, Forall (fun b => len b = 512 /\ all_bytes b) bs ->
  (redoBlocks (map IoBytes bs) = Panic <->
   exists bs1 b bs2, bs = bs1 ++ b :: bs2 /\ Forall (fun b => block_len b <> 0) bs1 /\ bad_length (block_len b))
  /\ redoBlocks (map IoBytes bs) <> NoFuel.
Proof.
  induction 1 as [|b bs [H1 H2] H IH].
  - split; [|discriminate]. split; [discriminate|]. intros [[|? ?] [b [bs2 [E _]]]]; discriminate.
  - cbn [map]. rewrite block_case by assumption. pose proof (block_range b H2 H1) as R. destruct IH as [IH1 IH2]. destruct (Z.eqb_spec (block_len b) 0) as [E0|E0].
    + split; [|discriminate]. split; [discriminate|]. intros [[|b0 bs1] [c [bs2 [E [K1 K2]]]]]; cbn in E; injection E as <- ->.
      * unfold bad_length in K2. lia.
      * inversion K1. contradiction.
    + destruct ((12 <=? block_len b) && (block_len b <=? 516)) eqn:G.
      * split; [|destruct (redoBlocks (map IoBytes bs)); cbn [bind]; congruence]. split.
        -- intro X. destruct IH1 as [IH1 _]. destruct (redoBlocks (map IoBytes bs)); cbn [bind] in X; try discriminate. destruct (IH1 eq_refl) as [bs1 [c [bs2 [-> [K1 K2]]]]].
           exists (b :: bs1), c, bs2. split; [reflexivity|]. split; [now constructor|exact K2].
        -- intros [[|b0 bs1] [c [bs2 [E [K1 K2]]]]]; cbn in E; injection E as <- ->; [unfold bad_length in K2; lia|]. inversion K1; subst.
           destruct IH1 as [_ ->]; [reflexivity|]. exists bs1, c, bs2. auto.
      * split; [|discriminate]. split; [intros _|reflexivity]. exists [], b, bs. split; [reflexivity|]. split; [constructor|]. unfold bad_length. lia.
Qed.
Print Assumptions C61_block_length_partial.

(** * C62 *)
(** The scan makes at most one round per input byte (and one that finds the
    end): from then on more rounds change nothing. *)
Theorem C62_terminates : forall rt tm want_db want_tb data spare, all_bytes data -> len data < 2 ^ 62 ->
  snd (parseRedoBlockData rt tm want_db want_tb data spare) <> NoFuel
  /\ exists o s r, r <> NoFuel /\ forall fuel, (List.length data < fuel)%nat -> redo_loop fuel rt tm want_db want_tb data spare 0 = (o, s, r).
Proof.
  intros rt tm db tb data spare Hb Hl.
  assert (K := ok_loop (fun _ => True) rt tm db tb data spare Hb Hl I I ltac:(intros; exact I) (S (List.length data)) 0 ltac:(pose proof (len_nonneg data); lia) ltac:(unfold len; lia)).
  unfold parseRedoBlockData. destruct (redo_loop (S (List.length data)) rt tm db tb data spare 0) as [[o s] r] eqn:E. destruct K as [_ K]. split; [exact K|].
  exists o, s, r. split; [exact K|]. intros fuel Hf. replace fuel with (S (List.length data) + (fuel - S (List.length data)))%nat by lia.
  now apply more_fuel.
Qed.
Print Assumptions C62_terminates.
Example C62_case rt : snd (parseRedoBlockData rt [] [] [] (repeat 255 40) 0) = Ok (Some err_short_compressed).
Proof. reflexivity. Qed.

(** * C63 *)
Theorem C63_forward : forall rt tm want_db want_tb data spare s, all_bytes data -> len data < 2 ^ 62 -> 0 <= s < len data ->
  s < snd (fst (redo_step rt tm want_db want_tb data spare s)).
Proof.
  intros rt tm db tb data spare s Hb Hl H.
  pose proof (ok_step (fun _ => True) rt tm db tb data spare Hb Hl I I s H ltac:(intros; exact I)) as K. unfold ok in K.
  destruct (redo_step rt tm db tb data spare s) as [[o s'] r]. cbn. lia.
Qed.
Print Assumptions C63_forward.
Example C63_case rt : redo_step rt [] [] [] [99; 1; 2; 3; 4; 5; 6; 7; 8; 9; 10; 11] 0 0 = ([], 1, Ok None).
Proof. reflexivity. Qed.

(** * C64 *)
(** False: after a record that ends in a transaction id the reader looks at
    more bytes than the record has (C76), and for the records of C65-C67 and
    C77. *)
Theorem C64_exact_step_refuted : forall rt tm want_db want_tb spare,
  let e := ERecord false 0 0 (BUndoReuse 5) in
  entry_ok e /\ snd (redo_step rt tm want_db want_tb (enc_entry e) spare 0) = Panic.
Proof. intros. split; [|reflexivity]. cbn. unfold word. lia. Qed.
Print Assumptions C64_exact_step_refuted.
(** Full statement: every supported record, followed by anything.  Proved: the
    records that [ordinary] admits, followed by at least [room] bytes.  Missing
    (false): the records of C65, C66, C67 and C77, and logs that end closer to
    the record (C76). *)
Theorem C64_exact_step_partial : forall rt tm want_db want_tb spare pre e d,
  let data := pre ++ enc_entry e ++ d in
  all_bytes data -> len data < 2 ^ 62 -> entry_ok e -> entry_ordinary e -> entry_room e <= len d ->
  redo_step rt tm want_db want_tb data spare (len pre) = ([], len (pre ++ enc_entry e), Ok None).
Proof.
  intros rt tm db tb spare pre e d data Hb Hs H1 H2 H3. rewrite len_app.
  apply (entry_step rt tm db tb data spare Hb Hs e (len pre) d); try assumption. exists pre. split; reflexivity.
Qed.
Print Assumptions C64_exact_step_partial.
Example C64_case rt tm want_db want_tb :
  let e := ERecord true 7 20000 (BUpdate (Some (mkDesc 1 [4; 32768])) 0 (mkSys 1 12345 6789) 130 0 [(3, Some (txt "new")); (4, Some [])]) in
  entry_ok e /\ entry_ordinary e /\ entry_room e <= 5
  /\ redo_step rt tm want_db want_tb ([31; 31] ++ enc_entry e ++ [31; 1; 2; 3; 4]) 0 2 = ([], 2 + len (enc_entry e), Ok None).
Proof.
  split; [|split; [|split; [cbn; lia|reflexivity]]].
  - cbn. unfold word, desc_ok, octet, sys_ok, short. cbn. unfold zlen. cbn. repeat (split; try lia).
    constructor; [unfold field_ok; cbn; unfold zlen; cbn; lia|]. constructor; [unfold field_ok; cbn; unfold zlen; cbn; lia|constructor].
  - cbn. repeat constructor; discriminate.
Qed.

(** * C65 *)
(** False of every rename record: the new name and its length are left. *)
Theorem C65_rename_refuted : forall rt tm want_db want_tb spare pre single space page t name new d,
  let e := ERecord single space page (BFileRename t name new) in
  let data := pre ++ enc_entry e ++ d in
  all_bytes data -> len data < 2 ^ 32 - 1 -> entry_ok e ->
  redo_step rt tm want_db want_tb data spare (len pre) = ([], len (pre ++ enc_entry e) - (2 + len new), Ok None).
Proof.
  intros rt tm db tb spare pre single sp pg t name new d e data Hb Hs H. rewrite len_app.
  apply (step_rename rt tm db tb data spare Hb Hs single sp pg t name new (len pre) d); [exists pre; split; reflexivity|exact H].
Qed.
Print Assumptions C65_rename_refuted.
Example C65_case rt tm want_db want_tb :
  let e := ERecord true 9 0 (BFileRename 34 (txt "./d/a.ibd") (txt "./d/bb.ibd")) in
  entry_ok e /\ len (enc_entry e) = 26 /\ redo_step rt tm want_db want_tb (enc_entry e ++ [31]) 0 0 = ([], 14, Ok None).
Proof. split; [|split; reflexivity]. cbn. unfold word, zlen. cbn. lia. Qed.
(** Full statement: the whole record is consumed.  Proved: the two names are
    the only thing that is missed, and nothing is printed (above); and records
    with one name are consumed completely. *)
Theorem C65_file_name_partial : forall rt tm want_db want_tb spare pre single space page t name d,
  let e := ERecord single space page (BFile t name) in
  let data := pre ++ enc_entry e ++ d in
  all_bytes data -> len data < 2 ^ 32 - 1 -> entry_ok e ->
  redo_step rt tm want_db want_tb data spare (len pre) = ([], len (pre ++ enc_entry e), Ok None).
Proof. intros. apply C64_exact_step_partial; try assumption; [change (len data < 2 ^ 62); lia|exact I|cbn; apply len_nonneg]. Qed.
Print Assumptions C65_file_name_partial.

(** * C66 *)
Theorem C66_sec_delete_refuted : forall rt tm want_db want_tb spare pre single space page desc val off d,
  let e := ERecord single space page (BCompSecDelete desc val off) in
  let data := pre ++ enc_entry e ++ d in
  all_bytes data -> len data < 2 ^ 32 - 1 -> entry_ok e ->
  redo_step rt tm want_db want_tb data spare (len pre) = ([], len (pre ++ enc_entry e) - 3, Ok None).
Proof.
  intros rt tm db tb spare pre single sp pg dd v o d e data Hb Hs H. rewrite len_app.
  apply (step_compsec rt tm db tb data spare Hb Hs single sp pg dd v o (len pre) d); [exists pre; split; reflexivity|exact H].
Qed.
Print Assumptions C66_sec_delete_refuted.
Example C66_case rt tm want_db want_tb :
  let e := ERecord true 9 4 (BCompSecDelete (mkDesc 2 [4; 8]) 1 126) in
  entry_ok e /\ len (enc_entry e) = 14 /\ redo_step rt tm want_db want_tb (enc_entry e ++ [31]) 0 0 = ([], 11, Ok None).
Proof. split; [|split; reflexivity]. cbn. unfold word, desc_ok, octet, short, zlen. cbn. lia. Qed.
(** Full statement: the whole record is consumed.  Proved: the same for the
    record about REDUNDANT pages; missing (false): the COMPACT one. *)
Theorem C66_sec_delete_partial : forall rt tm want_db want_tb spare pre single space page val off d,
  let e := ERecord single space page (BSecDelete val off) in
  let data := pre ++ enc_entry e ++ d in
  all_bytes data -> len data < 2 ^ 32 - 1 -> entry_ok e ->
  redo_step rt tm want_db want_tb data spare (len pre) = ([], len (pre ++ enc_entry e), Ok None).
Proof. intros. apply C64_exact_step_partial; try assumption; [change (len data < 2 ^ 62); lia|exact I|cbn; apply len_nonneg]. Qed.
Print Assumptions C66_sec_delete_partial.

(** * C67 *)
(** False of every such record in every log: what precedes it is printed, the
    rest of the log is lost without an error. *)
Theorem C67_null_update_refuted : forall rt tm want_db want_tb spare es lines single space page desc flags sys off info fields d,
  let e := ERecord single space page (BUpdate desc flags sys off info fields) in
  let data := flat_map enc_entry es ++ enc_entry e ++ d in
  all_bytes data -> len data < 2 ^ 32 - 1 -> entry_ok e -> Exists (fun f => snd f = None) fields ->
  (forall k t, mget tm k = Some t -> want_db = [] \/ want_tb = [] \/ want_db = t_db t \/ want_tb <> t_name t) ->
  log_lines rt tm want_db want_tb (len (enc_entry e ++ d)) es lines ->
  parseRedoBlockData rt tm want_db want_tb data spare = (lines, Ok None).
Proof.
  intros rt tm db tb spare es lines single sp pg od fl sv off info fs d e data Hb Hs Hok Hn HF HL.
  apply (log_null rt tm db tb data spare Hb Hs HF es lines single sp pg od fl sv off info fs d); try assumption; [reflexivity|].
  intro X. rewrite Forall_forall in X. apply Exists_exists in Hn as [f [Hf1 Hf2]]. exact (X f Hf1 Hf2).
Qed.
Print Assumptions C67_null_update_refuted.
Example C67_case rt :
  let e := ERecord true 7 4 (BUpdate (Some (mkDesc 1 [4; 32768])) 0 (mkSys 1 12345 6789) 130 0 [(3, None); (4, Some [1])]) in
  entry_ok e /\ parseRedoBlockData rt (sample_tm (txt "b")) [] [] (sample_data ++ enc_entry e ++ sample_data) 0 = ([sample_line (txt "b")], Ok None)
  /\ parseRedoBlockData rt (sample_tm (txt "b")) [] [] (sample_data ++ sample_data) 0 = ([sample_line (txt "b"); sample_line (txt "b")], Ok None).
Proof.
  split; [|split; reflexivity]. cbn. unfold word, desc_ok, octet, sys_ok, short. cbn. unfold zlen. cbn. repeat (split; try lia).
  constructor; [unfold field_ok; cbn; lia|]. constructor; [unfold field_ok; cbn; unfold zlen; cbn; lia|constructor].
Qed.
(** Full statement: the scan goes on after every in-place update.  Proved: if
    no new value is NULL.  Missing (false): NULL. *)
Theorem C67_update_partial : forall rt tm want_db want_tb spare pre single space page desc flags sys off info fields d,
  let e := ERecord single space page (BUpdate desc flags sys off info fields) in
  let data := pre ++ enc_entry e ++ d in
  all_bytes data -> len data < 2 ^ 62 -> entry_ok e -> Forall (fun f => snd f <> None) fields ->
  sv_trx sys < 2 ^ 60 \/ 1 <= len d ->
  redo_step rt tm want_db want_tb data spare (len pre) = ([], len (pre ++ enc_entry e), Ok None).
Proof.
  intros rt tm db tb spare pre single space page desc flags sys off info fields d e data Hb Hl Hok Hn Hr. apply C64_exact_step_partial; try assumption.
  cbn [entry_room e room]. pose proof (high_range (sv_trx sys)). pose proof (comp_len (zlen fields)). pose proof (len_nonneg (flat_map enc_field fields)). pose proof (len_nonneg d).
  destruct Hok as [_ [_ [_ [_ [[_ [Ht _]] _]]]]]. change (@zlen) with (@len) in *. destruct Hr as [Hr|Hr]; [|lia].
  assert (high_size (sv_trx sys) <= 4); [|lia]. unfold high_size. change (@zlen) with (@len). rewrite len_enc_compressed. unfold MatchGetCompressedSize.
  repeat match goal with |- context [?a <? ?b] => destruct (Z.ltb_spec a b) end; lia.
Qed.
Print Assumptions C67_update_partial.

(** * C68 *)
(** Full statement: every log of supported records prints exactly the UPDATE
    statements of its update undo records of known, requested tables.  Proved:
    for logs of ordinary records with enough bytes after each ([log_lines]),
    logs below 4 GiB, undo numbers and table ids below 2^32, and the filters of
    C33_filter_partial.  The lines include the message printed when a DECIMAL
    column is read; without one they are the statements.  Missing (false): the
    cases of C33, C65-C67, C76, C77. *)
Theorem C68_log_partial : forall rt tm want_db want_tb spare fs es tail lines,
  Forall file_ok fs ->
  flat_map (fun f => payloads (lf_blocks f)) fs = flat_map enc_entry es ++ tail ->
  len (flat_map enc_entry es ++ tail) < 2 ^ 32 - 1 -> len tail < 5 ->
  (forall k t, mget tm k = Some t -> want_db = [] \/ want_tb = [] \/ want_db = t_db t \/ want_tb <> t_name t) ->
  log_lines rt tm want_db want_tb (len tail) es lines ->
  ParseRedoLogs rt tm want_db want_tb (map (fun f => Some (log_events f)) fs) spare = (lines, Ok None).
Proof.
  intros rt tm db tb spare fs es tail lines Hf E Hl Ht HF HL. rewrite parse_files by assumption.
  pose proof (logs_bytes fs Hf) as Hb. rewrite E in *. now apply (log_parse rt tm db tb _ spare Hb Hl HF tail es lines).
Qed.
Print Assumptions C68_log_partial.
Definition sample_file2 : log_file := mkLogFile (lf_header sample_file) (lf_cp1 sample_file) (lf_unused sample_file) (lf_cp2 sample_file)
  [block_with (12 + len sample_data) sample_data; block_with (12 + len sample_data) sample_data; block_with 0 []].
Example C68_case rt : Forall file_ok [sample_file2]
  /\ ParseRedoLogs rt (sample_tm (txt "b")) (txt "b") [] [Some (log_events sample_file2)] 0 = ([sample_line (txt "b"); sample_line (txt "b")], Ok None).
Proof.
  split; [|reflexivity]. constructor; [|constructor]. destruct sample_file_ok as [H1 [H2 [H3 [H4 [H5 [H6 H7]]]]]]. unfold file_ok, sample_file2. cbn [lf_header lf_cp1 lf_unused lf_cp2 lf_blocks].
  do 6 (split; [assumption|]). unfold lf_blocks, sample_file in H7. inversion H7 as [|? ? _ K1]; subst. inversion K1 as [|? ? K2 K3]; subst. inversion K3; subst. auto.
Qed.

(** False: three entries of the log of C67_case are two updates of b.t and a
    record between them; only the first is printed. *)
Theorem C68_log_refuted : forall rt, exists es f,
  Forall entry_ok es /\ payloads (lf_blocks f) = flat_map enc_entry es /\ file_ok f
  /\ es = sample_log ++ [ERecord true 7 4 (BUpdate None 0 (mkSys 1 12345 6789) 130 0 [(3, None)])] ++ sample_log
  /\ ParseRedoLogs rt (sample_tm (txt "b")) [] [] [Some (log_events f)] 0 = ([sample_line (txt "b")], Ok None).
Proof.
  intro rt. set (e := ERecord true 7 4 (BUpdate None 0 (mkSys 1 12345 6789) 130 0 [(3, None)])).
  exists (sample_log ++ [e] ++ sample_log). set (p := flat_map enc_entry (sample_log ++ [e] ++ sample_log)).
  exists (mkLogFile (lf_header sample_file) (lf_cp1 sample_file) (lf_unused sample_file) (lf_cp2 sample_file) [block_with (12 + len p) p; block_with 0 []]).
  assert (He : entry_ok e).
  { cbn. unfold word, octet, sys_ok, short, zlen. cbn. repeat (split; try lia). constructor; [unfold field_ok; cbn; lia|constructor]. }
  assert (Hl : Forall entry_ok sample_log).
  { unfold sample_log. repeat (apply Forall_cons; [cbn; unfold word, short, desc_ok, insertion_ok, zlen; cbn; lia|]). constructor. }
  split; [apply Forall_app; split; [exact Hl|constructor; [exact He|exact Hl]]|]. split; [reflexivity|]. split; [|split; reflexivity].
  destruct sample_file_ok as [H1 [H2 [H3 [H4 [H5 [H6 H7]]]]]]. unfold file_ok. cbn [lf_header lf_cp1 lf_unused lf_cp2 lf_blocks].
  do 6 (split; [assumption|]). constructor; [apply block_check; reflexivity|]. constructor; [apply block_check; reflexivity|constructor].
Qed.
Print Assumptions C68_log_refuted.

(** * C69 *)
(** False: a column position the dictionary does not know makes the reader stop
    in the middle of the record. *)
Theorem C69_skip_refuted : forall rt, exists body d,
  len body < 2 ^ 16 /\ all_bytes body /\
  redo_step rt (sample_tm (txt "b")) [] [] (20 :: 0 :: 0 :: be 2 (len body) ++ body ++ d) 0 0
  = ([], len (20 :: 0 :: 0 :: be 2 (len body) ++ body) - 7, Ok None).
Proof.
  intros rt. exists (enc_undo (sample_undo UNDO_UPDATE [(5, Some [1; 2; 3; 4])])), [31; 31; 31; 31; 31; 31; 31; 31].
  split; [reflexivity|]. split; [apply byte_list; reflexivity|reflexivity].
Qed.
Print Assumptions C69_skip_refuted.
(** Full statement: the scan resumes at the end given by the length field.
    Proved: it does, or the cursor is within five bytes of the log's end (then
    the scan is over), or the handler reports "field not found".  Missing
    (false): that case. *)
Theorem C69_skip_partial : forall rt tm want_db want_tb spare pre body d,
  let data := pre ++ be 2 (len body) ++ body ++ d in
  all_bytes data -> len data < 2 ^ 32 - 1 -> len body < 2 ^ 16 ->
  exists lines s err, mlogUndoInsert rt tm want_db want_tb data spare (len pre) = (lines, s, Ok err)
  /\ (s = len (pre ++ be 2 (len body) ++ body) \/ len data < s + 5 \/ err = Some (txt "field not found")).
Proof.
  intros rt tm db tb spare pre body d data Hb Hs Hl.
  destruct (any_undo rt tm db tb data spare Hb Hs body (len pre) d) as [o [s' [e [E [K _]]]]]; [exists pre; split; reflexivity|exact Hl|].
  exists o, s', e. split; [exact E|]. rewrite !len_app, len_be. change (txt "field not found") with err_field. destruct K as [->|K]; [left; lia|now right].
Qed.
Print Assumptions C69_skip_partial.
Example C69_case rt : mlogUndoInsert rt (sample_tm (txt "b")) [] [] ([9; 9] ++ be 2 6 ++ [12; 255; 255; 255; 255; 255] ++ [31; 31; 31; 31; 31; 31; 31]) 0 2 = ([], 10, Ok None).
Proof. reflexivity. Qed.

(** * C70 *)
(** False: an insert's undo record of a table with a DECIMAL key prints a line. *)
Theorem C70_silent_refuted : forall rt, exists t u d,
  un_type u = UNDO_INSERT /\
  fst (fst (redo_step rt [(40, t)] [] [] (enc_entry (ERecord false 0 5 (BUndo (enc_undo u))) ++ d) 0 0)) = [txt "test MYSQL_TYPE_NEWDECIMAL"].
Proof.
  intro rt. exists (mkTable (txt "b") (txt "t") [mkColumn (txt "id") 3 246 0 3 VNil false false false 0] [(1, mkIndex 1 (txt "PRIMARY") 1 3 [mkField 0 (txt "id")])] 0 0),
    (mkUndo UNDO_INSERT 0 false 3 40 0 0 0 [[128; 0; 7]] [] []), [31; 31; 31; 31; 31]. split; reflexivity.
Qed.
Print Assumptions C70_silent_refuted.
(** Full statement: nothing is printed.  Proved: nothing but the two
    diagnostics.  Missing (false): those. *)
Theorem C70_silent_partial : forall rt tm want_db want_tb spare pre b body d,
  let data := pre ++ be 2 (len (b :: body)) ++ (b :: body) ++ d in
  all_bytes data -> len data < 2 ^ 32 - 1 -> len (b :: body) < 2 ^ 16 -> b mod 16 <> UNDO_UPDATE ->
  Forall (fun l => l = txt "test MYSQL_TYPE_NEWDECIMAL" \/ l = txt "data too short, method is MatchParseCompressed")
    (fst (fst (mlogUndoInsert rt tm want_db want_tb data spare (len pre)))).
Proof.
  intros rt tm db tb spare pre b body d data Hb Hs Hl Hk.
  destruct (any_undo rt tm db tb data spare Hb Hs (b :: body) (len pre) d) as [o [s' [e [E [_ K]]]]]; [exists pre; split; reflexivity|exact Hl|].
  rewrite E. cbn [fst]. eapply Forall_impl; [|apply K; [discriminate|exact Hk]]. intros l [-> | ->]; [right|left]; reflexivity.
Qed.
Print Assumptions C70_silent_partial.
Example C70_case rt : fst (fst (redo_step rt (sample_tm (txt "b")) [] [] (enc_entry (ERecord false 0 5 (BUndo (enc_undo (sample_undo UNDO_DELETE [])))) ++ [1; 2; 3; 4; 5]) 0 0)) = [].
Proof. reflexivity. Qed.

(** * C71 *)
(** A byte whose low seven bits are the type of no log entry *)
Definition no_type (b : Z) : Prop := forall e, entry_ok e -> hd 0 (enc_entry e) mod 128 <> b mod 128.
Definition type_witness : list entry :=
  let r b := ERecord false 0 0 b in
  let d := mkDesc 0 [] in let i := mkIns None [] in let s := mkSys 0 0 0 in
  map (fun t => r (BNone t)) no_body ++ map (fun t => r (BNum t 0 0)) [1; 2; 4] ++ map (fun t => r (BFile t [])) [33; 35; 55] ++ map (fun t => r (BFileRename t [] [])) [34; 54] ++
  [r (BNum8 0 0); r (BSecDelete 0 0); r (BUndo []); r (BUndoInit 0); r (BUndoReuse 0); r (BUndoCreate 0); r (BString 0 []); EEnd; EDummy; ECheckpoint 0; r (BFileCreate2 0 []);
   r (BMinMark false 0); r (BMinMark true 0); r (BInsert None 0 i); r (BInsert (Some d) 0 i); r (BClustDelete None 0 0 s 0); r (BClustDelete (Some d) 0 0 s 0); r (BCompSecDelete d 0 0);
   r (BUpdate None 0 s 0 0 []); r (BUpdate (Some d) 0 s 0 0 []); r (BDelete None 0); r (BDelete (Some d) 0); r (BListDelete None true 0); r (BListDelete (Some d) true 0);
   r (BListDelete None false 0); r (BListDelete (Some d) false 0); r (BCopy None []); r (BCopy (Some d) []); r (BReorganize None); r (BReorganize (Some d)); r (BZipReorganize d 0);
   r (BZipNodePtr 0 0 0); r (BZipBlobPtr 0 0 (repeat 0 20)); r (BZipHeader 0 []); r (BZipCompress 0 0 [] []); r (BZipNoData d 0); r (BTruncate 0); r (BIndexLoad 0)].
Lemma witness_ok : Forall entry_ok type_witness.
Proof.
  unfold type_witness, no_body. cbn [map app].
  repeat (apply Forall_cons; [cbn; unfold word, short, octet, desc_ok, insertion_ok, sys_ok, zlen; cbn; repeat split; try lia; try reflexivity; try constructor|]). apply Forall_nil.
Qed.
Lemma known_types t : validateLogHeader t = true -> exists e, entry_ok e /\ hd 0 (enc_entry e) mod 128 = t.
Proof.
  unfold validateLogHeader. intro H. apply existsb_exists in H as [x [Hx E]]. apply Z.eqb_eq in E. subst x.
  assert (A : forallb (fun t => existsb (fun e => hd 0 (enc_entry e) mod 128 =? t) type_witness) knownTypes = true) by reflexivity.
  rewrite forallb_forall in A. specialize (A t Hx). apply existsb_exists in A as [e [He E]]. exists e. split; [|lia].
  pose proof witness_ok as W. rewrite Forall_forall in W. now apply W.
Qed.
(** False near the end of the log: the reader looks for space and page number
    after every byte. *)
Theorem C71_resync_refuted : no_type 99 /\ forall rt tm want_db want_tb spare,
  parseRedoBlockData rt tm want_db want_tb [99; 224; 1; 2; 3] spare = ([], Panic).
Proof.
  split; [|reflexivity]. intros e He. destruct e as [single sp pg b| | |]; cbn [enc_entry hd]; try (cbn; discriminate).
  destruct He as [_ [_ He]]. pose proof (type_range b He) as [T _].
  intro X. assert (type_of b = 99) by (destruct single; cbn in X; lia). lia.
Qed.
Print Assumptions C71_resync_refuted.
(** Full statement: all contexts.  Proved: at least ten more bytes.  Missing
    (false): fewer, see C71_exact_refuted. *)
Theorem C71_resync_partial : forall rt tm want_db want_tb spare pre b d,
  let data := pre ++ b :: d in
  all_bytes data -> len data < 2 ^ 32 - 1 -> 10 <= len d -> no_type b ->
  redo_step rt tm want_db want_tb data spare (len pre) = ([], len pre + 1, Ok None).
Proof.
  intros rt tm db tb spare pre b d data Hb Hs Hd Hn.
  assert (Bb : 0 <= b < 256). { apply all_bytes_app in Hb as [_ Hb]. inversion Hb as [|? ? X _]. exact X. }
  assert (E : Z.ldiff b 128 = b mod 128).
  { change 128 with (2 ^ 7) at 1. rewrite ldiff_pow2 by lia. rewrite testbit_high by lia. destruct (Z.leb_spec (2 ^ 7) b); lia. }
  apply (step_unknown rt tm db tb data spare Hb Hs b (len pre) d); [exists pre; split; reflexivity|exact Hd| | |].
  - intros ->. apply (Hn EEnd I). reflexivity.
  - rewrite E. intro X. apply (Hn (ECheckpoint 0)); [cbn; lia|]. now rewrite X.
  - rewrite E. destruct (validateLogHeader (b mod 128)) eqn:V; [|reflexivity]. destruct (known_types _ V) as [e [He Ee]]. now destruct (Hn e He).
Qed.
Print Assumptions C71_resync_partial.
Example C71_case rt tm want_db want_tb : redo_step rt tm want_db want_tb [31; 99; 224; 1; 2; 3; 4; 5; 6; 7; 8; 9; 10] 0 1 = ([], 2, Ok None).
Proof. reflexivity. Qed.

(** * C76: a log that ends right after a complete record *)
Theorem C76_log_end_refuted : forall rt tm want_db want_tb spare,
  let e := ERecord false 0 0 (BUndoReuse 5) in
  entry_ok e /\ parseRedoBlockData rt tm want_db want_tb (enc_entry e) spare = ([], Panic).
Proof. intros. split; [|reflexivity]. cbn. unfold word. lia. Qed.
Print Assumptions C76_log_end_refuted.
(** Full statement: no log of complete records crashes the tool.  Proved: no
    log of records that are followed by no less than [room] bytes (an undo
    record without room prints nothing).  Missing (false): the others, see
    C76_exact_refuted. *)
Theorem C76_log_end_partial : forall rt tm want_db want_tb spare es lines,
  all_bytes (flat_map enc_entry es) -> len (flat_map enc_entry es) < 2 ^ 32 - 1 ->
  (forall k t, mget tm k = Some t -> want_db = [] \/ want_tb = [] \/ want_db = t_db t \/ want_tb <> t_name t) ->
  log_lines rt tm want_db want_tb 0 es lines ->
  parseRedoBlockData rt tm want_db want_tb (flat_map enc_entry es) spare = (lines, Ok None).
Proof.
  intros rt tm db tb spare es lines Hb Hs HF HL. apply (log_parse rt tm db tb _ spare Hb Hs HF [] es lines); [now rewrite app_nil_r|exact HL|reflexivity].
Qed.
Print Assumptions C76_log_end_partial.
Example C76_case rt want_db want_tb db : log_lines rt (sample_tm db) want_db want_tb 0 sample_log
  ((if (beq want_db [] || beq want_db db) && (beq want_tb [] || beq want_tb (txt "t")) then [sample_line db] else []) ++ []).
Proof. apply sample_log_lines. Qed.
(** A log that ends with the old value of an update *)
Example C76_case2 rt db : log_lines rt (sample_tm db) [] [] 0 [ERecord false 0 5 (BUndo (enc_undo (update_with [])))] ([sample_line db] ++ [])
  /\ parseRedoBlockData rt (sample_tm (txt "b")) [] [] (enc_entry (ERecord false 0 5 (BUndo (enc_undo (update_with []))))) 0 = ([sample_line (txt "b")], Ok None).
Proof.
  split; [|reflexivity]. apply ll_undo; [unfold word; lia|unfold word; lia| | |constructor].
  - unfold undo_ok. cbn [update_with un_type un_cmpl un_no un_table un_info un_trx un_roll un_keys un_changes]. split; [cbn; unfold UNDO_INSERT, UNDO_UPDATE; tauto|].
    do 6 (split; [lia|]). split; [constructor; [reflexivity|constructor]|]. split; [reflexivity|].
    split; [constructor; [unfold field_ok; cbn; unfold zlen; cbn; lia|constructor]|]. reflexivity.
  - apply (sample_lines rt [] [] db _ []). unfold zlen; lia.
Qed.

(** * C77: the one-byte record MLOG_DUMMY_RECORD *)
(** False: two more integers are consumed. *)
Theorem C77_dummy_refuted : forall rt tm want_db want_tb spare pre a b d,
  let data := pre ++ enc_entry EDummy ++ enc_compressed a ++ enc_compressed b ++ d in
  all_bytes data -> len data < 2 ^ 32 - 1 -> word a -> word b ->
  redo_step rt tm want_db want_tb data spare (len pre) = ([], len (pre ++ enc_entry EDummy) + len (enc_compressed a ++ enc_compressed b), Ok None).
Proof.
  intros rt tm db tb spare pre a b d data Hb Hs Ha Hb'. rewrite !len_app. change (len (enc_entry EDummy)) with 1. rewrite Z.add_assoc.
  apply (step_dummy rt tm db tb data spare Hb Hs a b (len pre) d); [exists pre; split; reflexivity|exact Ha|exact Hb'].
Qed.
Print Assumptions C77_dummy_refuted.
(** Full statement: the scan resumes at the next byte.  Proved: it prints
    nothing and resumes at most ten bytes later.  Missing (false): the rest. *)
Theorem C77_dummy_partial : forall rt tm want_db want_tb spare pre a b d,
  let data := pre ++ enc_entry EDummy ++ enc_compressed a ++ enc_compressed b ++ d in
  all_bytes data -> len data < 2 ^ 32 - 1 -> word a -> word b ->
  exists s, redo_step rt tm want_db want_tb data spare (len pre) = ([], s, Ok None) /\ len pre + 1 < s <= len pre + 11.
Proof.
  intros rt tm db tb spare pre a b d data Hb Hs Ha Hb'. eexists. split; [now apply C77_dummy_refuted|].
  rewrite !len_app. change (len (enc_entry EDummy)) with 1. pose proof (comp_len a). pose proof (comp_len b). lia.
Qed.
Print Assumptions C77_dummy_partial.
Example C77_case rt tm want_db want_tb : redo_step rt tm want_db want_tb (enc_entry EDummy ++ enc_entry EEnd ++ enc_entry EEnd ++ [1; 2; 3]) 0 0 = ([], 3, Ok None).
Proof. reflexivity. Qed.

(** * C78: the header of a log file *)
Theorem C78_header_refuted : forall h f, len h = 512 -> all_bytes h -> ~ In 0 (skipn 16 h) -> readRedoLogFileHeader (IoBytes h :: f) = Panic.
Proof.
  intros h f H1 H2 H3. rewrite header_case by assumption. destruct (existsb (Z.eqb 0) (skipn 16 h)) eqn:E; [|reflexivity].
  apply existsb_exists in E as [z [E1 E2]]. apply Z.eqb_eq in E2. now subst z.
Qed.
Print Assumptions C78_header_refuted.
Example C78_refuted_case : redoFiles [Some [IoBytes (repeat 65 (Z.to_nat 512))]] = Panic.
Proof. reflexivity. Qed.
(** Full statement: no header crashes the tool.  Proved: none with a zero byte
    at or after offset 16.  Missing (false): the others. *)
Theorem C78_header_partial : forall h f, len h = 512 -> all_bytes h -> In 0 (skipn 16 h) -> readRedoLogFileHeader (IoBytes h :: f) = Ok (None, f).
Proof.
  intros h f H1 H2 H3. rewrite header_case by assumption.
  replace (existsb (Z.eqb 0) (skipn 16 h)) with true by (symmetry; apply existsb_exists; exists 0; split; [exact H3|reflexivity]). reflexivity.
Qed.
Print Assumptions C78_header_partial.
Example C78_case : readRedoLogFileHeader [IoBytes (lf_header sample_file); IoErr] = Ok (None, [IoErr]).
Proof. reflexivity. Qed.

(** * C79: what precedes damage is printed *)
Theorem C79_prefix : forall rt tm want_db want_tb spare es lines tail,
  let data := flat_map enc_entry es ++ tail in
  all_bytes data -> len data < 2 ^ 32 - 1 ->
  (forall k t, mget tm k = Some t -> want_db = [] \/ want_tb = [] \/ want_db = t_db t \/ want_tb <> t_name t) ->
  log_lines rt tm want_db want_tb (len tail) es lines ->
  exists rest, fst (parseRedoBlockData rt tm want_db want_tb data spare) = lines ++ rest.
Proof. intros rt tm db tb spare es lines tail data Hb Hs HF HL. now apply (log_prefix rt tm db tb data spare Hb Hs HF tail es lines). Qed.
Print Assumptions C79_prefix.
Example C79_case rt : parseRedoBlockData rt (sample_tm (txt "b")) [] [] (sample_data ++ [99; 224; 1; 2; 3]) 0 = ([sample_line (txt "b")], Panic).
Proof. reflexivity. Qed.
