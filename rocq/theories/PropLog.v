(** More of C48, C64, C68-C71, C76 and C80: what happens in every log where the
    exact claims fail. *)
From Coq Require Import ZArith List Bool String Lia ZifyBool.
From Verif Require Import GoBase Utils Ibdata Redo SpecInno SpecText SpecSql SpecCmd SpecRecord SpecRow SpecRedo SpecUndo PBase PText PWire PValue PSql PRedo PStep PRec PUndo PLog PropValue PropRedo PropNull.
Import ListNotations.
Local Open Scope Z_scope.
Local Open Scope list_scope.
Close Scope string_scope.
Ltac Zify.zify_post_hook ::= Z.div_mod_to_equations.

(** A step that crashes or fails ends the log. *)
Lemma log_stop rt tm db tb spare es lines x s r : let data := flat_map enc_entry es ++ x in
  all_bytes data -> len data < 2 ^ 32 - 1 -> 5 <= len x ->
  (forall k t, mget tm k = Some t -> db = [] \/ tb = [] \/ db = t_db t \/ tb <> t_name t) ->
  log_lines rt tm db tb (len x) es lines ->
  redo_step rt tm db tb data spare (len (flat_map enc_entry es)) = ([], s, r) -> r = Panic \/ (exists e, r = Ok (Some e)) ->
  parseRedoBlockData rt tm db tb data spare = (lines, r).
Proof.
  intros data Hb Hs Hx HF HL E Hr. unfold parseRedoBlockData.
  destruct (run_to rt tm db tb data spare Hb Hs HF x Hx es lines HL 0 (S (List.length data))) as [fuel' [o [s' [r' [K1 [K2 [K3 ->]]]]]]].
  - exists []. now split.
  - unfold len. lia.
  - cbn [Z.add] in *. pose proof (At_range _ _ _ K1) as [R1 R2]. destruct fuel' as [|f]; [lia|]. cbn [redo_loop] in K3. erewrite pb in K3 by reflexivity. cbv beta in K3.
    rewrite guard in K3 by (try assumption; lia). replace (len data - len (flat_map enc_entry es) <? 5) with false in K3 by lia.
    unfold pbind in K3. rewrite E in K3. destruct Hr as [->|[e ->]]; cbn in K3; injection K3 as <- _ <-; now rewrite app_nil_r.
Qed.

(** * C64 and C76: exactly how many bytes must follow a record *)
(** With fewer than [room] bytes after it, the reader crashes at a record that
    reuses an undo log header or delete-marks a row; after an in-place update
    it goes on in the middle of the record. *)
Theorem C64_room_refuted : forall rt tm want_db want_tb spare pre single space page b d,
  let e := ERecord single space page b in
  let data := pre ++ enc_entry e ++ d in
  all_bytes data -> len data < 2 ^ 62 -> entry_ok e -> ordinary b -> len d < room b ->
  match b with
  | BUndoReuse _ | BClustDelete _ _ _ _ _ => exists s, redo_step rt tm want_db want_tb data spare (len pre) = ([], s, Panic)
  | BUpdate _ _ _ _ _ fields => redo_step rt tm want_db want_tb data spare (len pre)
      = ([], len (pre ++ enc_entry e) - (7 + len (enc_compressed (len fields)) + len (flat_map enc_field fields)), Ok None)
  | _ => False
  end.
Proof.
  intros rt tm db tb spare pre single sp pg b d e data Hb Hs [H1 [H2 H3]] Ho Hr. rewrite len_app.
  assert (HA : At data (len pre) (enc_entry e ++ d)) by (exists pre; split; reflexivity).
  destruct (front rt tm db tb data spare Hb Hs single sp pg b (len pre) d HA H1 H2 H3) as [s' [Es [H' ->]]].
  pose proof (body_short rt tm db tb data spare Hb Hs b s' d H' H3 Ho Hr) as X.
  destruct b; try contradiction; try exact X. rewrite X. change (@zlen) with (@len). apply trip.
  unfold e. cbn [enc_entry]. rewrite len_cons, !len_app. lia.
Qed.
Print Assumptions C64_room_refuted.
Example C64_room_case : let e := ERecord true 0 9 (BClustDelete None 0 1 (mkSys 1 5 (70000 * 2 ^ 32)) 130) in
  entry_ok e /\ entry_room e = 1 /\ forall rt tm want_db want_tb,
  snd (redo_step rt tm want_db want_tb ([31] ++ enc_entry e) 0 1) = Panic /\ snd (redo_step rt tm want_db want_tb ([31] ++ enc_entry e ++ [31]) 0 1) = Ok None.
Proof. split; [|split; [reflexivity|split; reflexivity]]. cbn. unfold word, octet, sys_ok, short. cbn. lia. Qed.

(** Every log with such a record too close to its end crashes the tool; what
    was printed before stays. *)
Theorem C76_exact_refuted : forall rt tm want_db want_tb spare es lines single space page b d,
  let e := ERecord single space page b in
  let data := flat_map enc_entry es ++ enc_entry e ++ d in
  all_bytes data -> len data < 2 ^ 32 - 1 -> entry_ok e ->
  match b with BUndoReuse _ | BClustDelete _ _ _ _ _ => True | _ => False end -> len d < room b ->
  (forall k t, mget tm k = Some t -> want_db = [] \/ want_tb = [] \/ want_db = t_db t \/ want_tb <> t_name t) ->
  log_lines rt tm want_db want_tb (len (enc_entry e ++ d)) es lines ->
  parseRedoBlockData rt tm want_db want_tb data spare = (lines, Panic).
Proof.
  intros rt tm db tb spare es lines single sp pg b d e data Hb Hs Hok Hk Hr HF HL.
  assert (X : exists s, redo_step rt tm db tb data spare (len (flat_map enc_entry es)) = ([], s, Panic)).
  { pose proof (C64_room_refuted rt tm db tb spare (flat_map enc_entry es) single sp pg b d Hb ltac:(fold e; fold data; lia) Hok) as X.
    destruct b; try contradiction; apply X; try assumption; exact I. }
  destruct X as [s E]. apply (log_stop rt tm db tb spare es lines (enc_entry e ++ d) s Panic); try assumption; [|now left].
  pose proof (len_nonneg d). unfold e. rewrite len_app. cbn [enc_entry]. rewrite len_cons, !len_app. pose proof (comp_len sp). pose proof (comp_len pg).
  assert (2 <= len (enc_body b)); [|lia]. destruct b; try contradiction; cbn [enc_body]; rewrite ?len_app, ?len_be.
  - rewrite u64_len. pose proof (size_range (trx / 2 ^ 32)). lia.
  - pose proof (len_nonneg (enc_opt d0)). pose proof (len_nonneg (enc_sys s0)). lia.
Qed.
Print Assumptions C76_exact_refuted.
Example C76_exact_case rt : exists e, parseRedoBlockData rt (sample_tm (txt "b")) [] [] (sample_data ++ enc_entry e ++ [0]) 0 = ([sample_line (txt "b")], Panic)
  /\ entry_ok e /\ entry_room e = 2.
Proof. exists (ERecord false 0 0 (BUndoReuse (300 * 2 ^ 32 + 5))). split; [reflexivity|]. split; [|reflexivity]. cbn. unfold word. lia. Qed.
(** The undo record of an update as InnoDB writes it - with a key, a changed
    column and a roll pointer of seven bytes - always leaves room. *)
Theorem C76_undo_room : forall u after, un_type u = UNDO_UPDATE -> un_keys u <> [] -> un_changes u <> [] -> 0 <= un_roll u < 2 ^ 56 -> 0 <= after -> undo_room u after.
Proof. exact update_room. Qed.
Print Assumptions C76_undo_room.
Example C76_undo_room_case : ~ undo_room (mkUndo UNDO_DELETE 0 false 3 40 0 77 (300 * 2 ^ 32) [[]] [] []) 0.
Proof. intros [H|H]; [discriminate|]. apply H. reflexivity. Qed.

(** * C68: every log with an update to NULL *)
(** Nothing behind such a record is ever printed, whatever it is. *)
Theorem C68_null_refuted : forall rt tm want_db want_tb spare fs es lines single space page desc flags sys off info fields d,
  let e := ERecord single space page (BUpdate desc flags sys off info fields) in
  Forall file_ok fs ->
  flat_map (fun f => payloads (lf_blocks f)) fs = flat_map enc_entry es ++ enc_entry e ++ d ->
  len (flat_map enc_entry es ++ enc_entry e ++ d) < 2 ^ 32 - 1 -> entry_ok e -> Exists (fun f => snd f = None) fields ->
  (forall k t, mget tm k = Some t -> want_db = [] \/ want_tb = [] \/ want_db = t_db t \/ want_tb <> t_name t) ->
  log_lines rt tm want_db want_tb (len (enc_entry e ++ d)) es lines ->
  ParseRedoLogs rt tm want_db want_tb (map (fun f => Some (log_events f)) fs) spare = (lines, Ok None).
Proof.
  intros rt tm db tb spare fs es lines single sp pg od fl sv off info fields d e Hf E Hl Hok Hn HF HL. rewrite parse_files by assumption.
  pose proof (logs_bytes fs Hf) as Hb. rewrite E in *. now apply C67_null_update_refuted.
Qed.
Print Assumptions C68_null_refuted.
(** An update to NULL in front of the sample log: its update is not printed. *)
Example C68_null_case rt :
  let e := ERecord true 7 4 (BUpdate None 0 (mkSys 1 12345 6789) 130 0 [(3, None)]) in
  let p := enc_entry e ++ flat_map enc_entry sample_log in
  let f := mkLogFile (lf_header sample_file) (lf_cp1 sample_file) (lf_unused sample_file) (lf_cp2 sample_file) [block_with (12 + len p) p; block_with 0 []] in
  file_ok f /\ payloads (lf_blocks f) = p /\ entry_ok e /\ Exists (fun f => snd f = None) [(3, @None bytes)]
  /\ log_lines rt (sample_tm (txt "b")) [] [] (len p) [] []
  /\ ParseRedoLogs rt (sample_tm (txt "b")) [] [] [Some (log_events f)] 0 = ([], Ok None)
  /\ ParseRedoLogs rt (sample_tm (txt "b")) [] [] [Some (log_events sample_file)] 0 = ([sample_line (txt "b")], Ok None).
Proof.
  intros e p f. split.
  { destruct sample_file_ok as [H1 [H2 [H3 [H4 [H5 [H6 H7]]]]]]. unfold file_ok, f. cbn [lf_header lf_cp1 lf_unused lf_cp2 lf_blocks].
    do 6 (split; [assumption|]). constructor; [apply block_check; reflexivity|]; constructor; [apply block_check; reflexivity|constructor]. }
  split; [reflexivity|]. split.
  { cbn. unfold word, octet, sys_ok, short, zlen. cbn. repeat (split; try lia). constructor; [unfold field_ok; cbn; lia|constructor]. }
  split; [constructor; reflexivity|]. split; [constructor|]. split; reflexivity.
Qed.

(** * C69: every update record with a position the dictionary does not have *)
(** The scan goes on right behind the position, inside the record. *)
Theorem C69_exact_refuted : forall rt tm want_db want_tb spare pre single space page u d t names key m m' ch1 p v ch2 shown,
  let e := ERecord single space page (BUndo (enc_undo u)) in
  let data := pre ++ enc_entry e ++ d in
  all_bytes data -> len data < 2 ^ 32 - 1 -> word space -> word page -> undo_ok u -> undo_room u (len d) ->
  mget tm (un_table u) = Some t -> un_type u = UNDO_UPDATE -> key_names t names -> key_shown rt t names (un_keys u) key m ->
  un_changes u = ch1 ++ (p, v) :: ch2 -> old_shown rt t (len d) ch1 shown m' -> len (t_columns t) <= p ->
  let behind := match v with None => enc_compressed (2 ^ 32 - 1) | Some b => enc_compressed (len b) ++ b end in
  redo_step rt tm want_db want_tb data spare (len pre)
  = (m ++ m', len (pre ++ enc_entry e) - len (behind ++ flat_map enc_field ch2 ++ un_more u), Ok None).
Proof.
  intros rt tm db tb spare pre single sp pg u d t names key m m' ch1 p v ch2 shown e data Hb Hs W1 W2 Hu Hr Hg Hty HN HK HC HO Hp behind.
  assert (HA : At data (len pre) (enc_entry e ++ d)) by (exists pre; split; reflexivity).
  assert (Hbo : body_ok (BUndo (enc_undo u))) by (cbn; destruct Hu; tauto).
  destruct (front rt tm db tb data spare Hb ltac:(lia) _ _ _ _ _ _ HA W1 W2 Hbo) as [s' [Es [H' ->]]].
  cbn [enc_body] in H'. rewrite <- app_assoc in H'.
  destruct (undo_lost rt tm db tb data spare Hb Hs u t names key m m' ch1 p v ch2 shown s' d H' Hu Hr Hg Hty HN HK HC HO Hp) as [err E].
  change (redo_switch rt tm db tb data spare (type_of (BUndo (enc_undo u)))) with (dropped (mlogUndoInsert rt tm db tb data spare)).
  unfold dropped. erewrite pbo by exact E. cbn [pret fst snd]. rewrite app_nil_r. apply trip.
  rewrite Es. unfold e, behind. cbn [enc_entry enc_body]. cbn [flat_map]. unfold enc_field at 1. cbn [fst snd]. rewrite !len_app, len_cons, !len_app, len_be. change (@zlen) with (@len). lia.
Qed.
Print Assumptions C69_exact_refuted.
Example C69_exact_case rt : forall pre d, let u := sample_undo UNDO_UPDATE [(1, Some (store_uint 4 300)); (5, Some [1; 2; 3; 4]); (0, None)] in
  let e := ERecord false 0 0 (BUndo (enc_undo u)) in let data := pre ++ enc_entry e ++ d in
  all_bytes data -> len data < 2 ^ 32 - 1 ->
  redo_step rt (sample_tm (txt "b")) [] [] data 0 (len pre) = ([], len (pre ++ enc_entry e) - 13, Ok None).
Proof.
  intros pre d u e data Hb Hs.
  apply (C69_exact_refuted rt (sample_tm (txt "b")) [] [] 0 pre false 0 0 u d (sample_table (txt "b")) [txt "id"] [(txt "id", txt "7")] [] []
    [(1, Some (store_uint 4 300))] 5 (Some [1; 2; 3; 4]) [(0, None)] [(txt "a", Some (txt "300"))]); try assumption; try (unfold word; lia); try reflexivity.
  - unfold undo_ok. cbn [u sample_undo un_type un_cmpl un_no un_table un_info un_trx un_roll un_keys un_changes]. split; [cbn; unfold UNDO_INSERT, UNDO_UPDATE; tauto|].
    do 6 (split; [lia|]). split; [constructor; [reflexivity|constructor]|]. split; [reflexivity|].
    split; [repeat (constructor; [unfold field_ok; cbn; unfold zlen; cbn; lia|]); constructor|]. reflexivity.
  - apply update_room; [reflexivity|discriminate|discriminate|cbn; lia|apply len_nonneg].
  - exists [], 1, (mkIndex 1 (txt "PRIMARY") 1 3 [mkField 0 (txt "id")]), []. repeat split; [constructor|]. left. split; reflexivity.
  - eapply key_quiet; [apply cn_here; reflexivity|cbn; lia| |left; apply text_uint; exact (fmt_d_spec 7)|constructor]. reflexivity.
  - eapply (old_quiet rt (sample_table (txt "b")) (len d) 1 (store_uint 4 300) (uint_col (txt "a")) (txt "300") [] [] []); [reflexivity|cbn; lia| |constructor].
    intros after _ _. exists (VUint 300), false. split; [|apply text_uint; exact (fmt_d_spec 300)]. apply (C10_unsigned_int rt 3 4 300 after false); [cbn; tauto|discriminate|discriminate|cbn; lia].
  - cbn. discriminate.
Qed.

(** * C70 and C80: which records print the DECIMAL message *)
Lemma named_once n cs c c' : column_named n cs c -> column_named n cs c' -> c = c'.
Proof. intro H. induction H as [c cs E|c c1 cs E H IH]; intro H2; inversion H2; subst; try congruence; auto. Qed.
Lemma named_in n cs c : column_named n cs c -> In n (map c_name cs).
Proof. induction 1 as [c cs E|c c1 cs E H IH]; [now left|now right]. Qed.
Definition decimal (c : Column) : Prop := c_type c = 3 /\ c_mysql c = 246.
Lemma remark_is c : (remark c = [] /\ ~ decimal c) \/ (remark c = [txt "test MYSQL_TYPE_NEWDECIMAL"] /\ decimal c).
Proof. unfold remark, decimal. destruct (Z.eqb_spec (c_type c) 3), (Z.eqb_spec (c_mysql c) 246); cbn [andb]; tauto. Qed.
Lemma key_remarks rt t names keys key m : key_shown rt t names keys key m ->
  Forall (eq (txt "test MYSQL_TYPE_NEWDECIMAL")) m /\ (m <> [] <-> exists n c, In n names /\ column_named n (t_columns t) c /\ decimal c).
Proof.
  induction 1 as [|n ns k ks c v bin x l m Hc Hl HP HT HK [I1 I2]].
  - split; [constructor|]. split; [congruence|intros [n [c [[] _]]]].
  - destruct (remark_is c) as [[-> Hd]|[-> Hd]]; cbn [app].
    + split; [exact I1|]. rewrite I2. split; intros [n' [c' [A [B D]]]]; exists n', c'; (split; [|split; assumption]); [now right|].
      destruct A as [<-|A]; [|exact A]. destruct Hc as [Hc|[Hc _]]; [rewrite (named_once _ _ _ _ B Hc) in D; contradiction|]. exfalso. apply Hc. exact (named_in _ _ _ B).
    + split; [constructor; [reflexivity|exact I1]|]. split; [intros _|discriminate]. exists n, c. split; [now left|]. split; [|exact Hd]. destruct Hc as [Hc|[_ ->]]; [exact Hc|]. destruct Hd as [Hd _]. discriminate Hd.
Qed.
(** An undo record of an inserted or deleted row prints one message for each
    DECIMAL column of its key and nothing else. *)
Theorem C70_exact_refuted : forall rt tm want_db want_tb spare pre single space page u d t names key m,
  let e := ERecord single space page (BUndo (enc_undo u)) in
  let data := pre ++ enc_entry e ++ d in
  all_bytes data -> len data < 2 ^ 32 - 1 -> word space -> word page -> undo_ok u -> undo_room u (len d) ->
  un_type u <> UNDO_UPDATE -> mget tm (un_table u) = Some t -> key_names t names -> key_shown rt t names (un_keys u) key m ->
  redo_step rt tm want_db want_tb data spare (len pre) = (m, len (pre ++ enc_entry e), Ok None)
  /\ Forall (eq (txt "test MYSQL_TYPE_NEWDECIMAL")) m
  /\ (m <> [] <-> exists n c, In n names /\ column_named n (t_columns t) c /\ decimal c).
Proof.
  intros rt tm db tb spare pre single sp pg u d t names key m e data Hb Hs W1 W2 Hu Hr Hty Hg HN HK. split; [|eapply key_remarks; exact HK].
  rewrite len_app. apply (step_undo_at rt tm db tb data spare Hb Hs) with (d := d); try assumption; [exists pre; split; reflexivity|eapply ul_other; eassumption|]. intro X. contradiction.
Qed.
Print Assumptions C70_exact_refuted.
Definition dec_tm : gomap Table := [(40, mkTable (txt "b") (txt "t") [mkColumn (txt "id") 3 246 0 3 VNil false false false 0] [(1, mkIndex 1 (txt "PRIMARY") 1 3 [mkField 0 (txt "id")])] 0 0)].
Definition dec_undo (k : list Z) : undo := mkUndo UNDO_INSERT 0 false 3 40 0 0 0 [k] [] [].
Example C70_exact_case rt pre d : let e := ERecord false 0 5 (BUndo (enc_undo (dec_undo [128; 0; 7]))) in let data := pre ++ enc_entry e ++ d in
  all_bytes data -> len data < 2 ^ 32 - 1 ->
  redo_step rt dec_tm [] [] data 0 (len pre) = ([txt "test MYSQL_TYPE_NEWDECIMAL"], len (pre ++ enc_entry e), Ok None).
Proof.
  intros e data Hb Hs. eapply (C70_exact_refuted rt dec_tm [] [] 0 pre false 0 5 (dec_undo [128; 0; 7]) d _ [txt "id"] [(txt "id", [128; 0; 7])] [txt "test MYSQL_TYPE_NEWDECIMAL"]);
    try assumption; try (unfold word; lia); try reflexivity; [|now left|discriminate| |].
  - unfold undo_ok. cbn. unfold UNDO_INSERT, zlen. cbn. repeat (split; try lia); try (left; reflexivity); repeat constructor.
  - exists [], 1, (mkIndex 1 (txt "PRIMARY") 1 3 [mkField 0 (txt "id")]), []. repeat split; [constructor|]. left. split; reflexivity.
  - refine (key_cons rt _ (txt "id") [] [128; 0; 7] [] (mkColumn (txt "id") 3 246 0 3 VNil false false false 0) _ _ [128; 0; 7] [] [] _ _ _ _ _); [left; apply cn_here; reflexivity|cbn; lia|reflexivity| |constructor].
    left. apply text_str.
Qed.

(** A log with an undo record of a row whose key has a DECIMAL column prints a
    line that is no statement. *)
Theorem C80_exact_refuted : forall rt tm want_db want_tb spare fs es1 es2 tail l1 l2 single space page u t names key m,
  let e := ERecord single space page (BUndo (enc_undo u)) in
  let rest := len (flat_map enc_entry es2) + len tail in
  Forall file_ok fs ->
  flat_map (fun f => payloads (lf_blocks f)) fs = flat_map enc_entry (es1 ++ e :: es2) ++ tail ->
  len (flat_map enc_entry (es1 ++ e :: es2) ++ tail) < 2 ^ 32 - 1 -> len tail < 5 ->
  (forall k t, mget tm k = Some t -> want_db = [] \/ want_tb = [] \/ want_db = t_db t \/ want_tb <> t_name t) ->
  log_lines rt tm want_db want_tb (len (enc_entry e) + rest) es1 l1 -> log_lines rt tm want_db want_tb (len tail) es2 l2 ->
  word space -> word page -> undo_ok u -> undo_room u rest ->
  mget tm (un_table u) = Some t -> key_names t names -> key_shown rt t names (un_keys u) key m ->
  (un_type u = UNDO_UPDATE -> exists old m', old_shown rt t rest (un_changes u) old m') ->
  (exists n c, In n names /\ column_named n (t_columns t) c /\ decimal c) ->
  exists l, ParseRedoLogs rt tm want_db want_tb (map (fun f => Some (log_events f)) fs) spare = (l1 ++ txt "test MYSQL_TYPE_NEWDECIMAL" :: l ++ l2, Ok None).
Proof.
  intros rt tm db tb spare fs es1 es2 tail l1 l2 single sp pg u t names key m e rest Hf E Hl Ht HF H1 H2 W1 W2 Hu Hr Hg HN HK HO HD.
  destruct (key_remarks _ _ _ _ _ _ HK) as [K1 K2]. apply K2 in HD.
  assert (X : exists l, undo_lines rt tm db tb rest u (m ++ l)).
  { destruct (Z.eq_dec (un_type u) UNDO_UPDATE) as [HT|HT].
    - destruct (HO HT) as [old [m' HO']]. destruct (requested_dec db tb (t_db t) (t_name t)) as [R|R].
      + eexists. eapply ul_update; eassumption.
      + eexists. eapply ul_unwanted; eassumption.
    - exists []. rewrite app_nil_r. eapply ul_other; eassumption. }
  destruct X as [l X]. destruct m as [|m0 m]; [contradiction|]. inversion K1 as [|? ? K3 K4]; subst m0.
  exists (m ++ l). change (txt "test MYSQL_TYPE_NEWDECIMAL" :: (m ++ l) ++ l2) with (((txt "test MYSQL_TYPE_NEWDECIMAL" :: m) ++ l) ++ l2).
  apply (C68_log_partial rt tm db tb spare fs (es1 ++ e :: es2) tail); try assumption. apply log_lines_app.
  - apply ll_undo; assumption.
  - replace (zlen (flat_map enc_entry (e :: es2)) + len tail) with (len (enc_entry e) + rest); [exact H1|].
    unfold rest. cbn [flat_map]. change (@zlen) with (@len). rewrite len_app. lia.
Qed.
Print Assumptions C80_exact_refuted.
Example C80_exact_case rt : let p := enc_entry (ERecord false 0 5 (BUndo (enc_undo (dec_undo [128; 0; 7])))) in
  let f := mkLogFile (lf_header sample_file) (lf_cp1 sample_file) (lf_unused sample_file) (lf_cp2 sample_file) [block_with (12 + len p) p; block_with 0 []] in
  file_ok f /\ payloads (lf_blocks f) = p /\ ParseRedoLogs rt dec_tm [] [] [Some (log_events f)] 0 = ([txt "test MYSQL_TYPE_NEWDECIMAL"], Ok None).
Proof.
  intros p f. split; [|split; reflexivity].
  destruct sample_file_ok as [H1 [H2 [H3 [H4 [H5 [H6 H7]]]]]]. unfold file_ok. cbn [f lf_header lf_cp1 lf_unused lf_cp2 lf_blocks].
  do 6 (split; [assumption|]). constructor; [apply block_check; reflexivity|]. constructor; [apply block_check; reflexivity|constructor].
Qed.

(** * C71: the bytes after an unknown type *)
(** The bytes of a compressed integer, by its first byte; what reading two of
    them comes to: both there, one cut off (an error if its first byte is 240 or
    more, a crash otherwise), or no byte at all (a crash). *)
Definition form_size (b : Z) : Z := if b <? 128 then 1 else if b <? 192 then 2 else if b <? 224 then 3 else if b <? 240 then 4 else 5.
Inductive reading : Type := Both | Fails | Crashes.
Definition read_form (d : list Z) (next : list Z -> reading) : reading :=
  match d with
  | [] => Crashes
  | b :: _ => if form_size b <=? zlen d then next (skipn (Z.to_nat (form_size b)) d) else if 240 <=? b then Fails else Crashes
  end.
Definition two_forms (d : list Z) : reading := read_form d (fun d' => read_form d' (fun _ => Both)).

Lemma form_read data s d : all_bytes data -> len data < 2 ^ 32 - 1 -> At data s d ->
  match d with
  | [] => compressed_at data s = ([], s, Panic)
  | b :: _ => if form_size b <=? len d then exists v, compressed_at data s = ([], s, Ok (v, form_size b, None))
              else if 240 <=? b then compressed_at data s = ([], s, Ok (0, 5, Some err_short_compressed)) else compressed_at data s = ([], s, Panic)
  end.
Proof.
  intros Hb Hs H. pose proof (At_range _ _ _ H) as [R1 R2]. unfold compressed_at. erewrite pb by reflexivity. cbv beta. unfold plift, MatchParseCompressed.
  rewrite (At_slice _ _ _ H). cbn [bind]. pose proof (At_bytes _ Hb _ _ H) as B. rewrite mrf1_spec by exact B. destruct d as [|b d]; [reflexivity|].
  rewrite len_cons in *. pose proof (len_nonneg d) as N. replace (1 <=? 1 + len d) with true by lia. cbn [firstn be_val bind].
  inversion B as [|? ? Bb Bd]; subst. unfold is_byte in Bb. replace (be_val [b]) with b by (cbn; lia). unfold form_size.
  destruct (Z.ltb_spec b 128). { replace (1 <=? 1 + len d) with true by lia. eexists. reflexivity. }
  rewrite mrf2_spec, mrf3_spec, mrf4_spec by exact B. rewrite len_cons.
  destruct (Z.ltb_spec b 192). { destruct (2 <=? 1 + len d); [eexists; reflexivity|]. replace (240 <=? b) with false by lia. reflexivity. }
  destruct (Z.ltb_spec b 224). { destruct (3 <=? 1 + len d); [eexists; reflexivity|]. replace (240 <=? b) with false by lia. reflexivity. }
  destruct (Z.ltb_spec b 240). { destruct (4 <=? 1 + len d); [eexists; reflexivity|]. replace (240 <=? b) with false by lia. reflexivity. }
  replace (240 <=? b) with true by lia. rewrite (u64_id (s + 5)), (u64_id (s + 1)) by lia.
  destruct (Z.leb_spec 5 (1 + len d)).
  - replace (len data <? s + 5) with false by lia. change (b :: d) with ([b] ++ d) in H. apply At_app in H. change (len [b]) with 1 in H. rewrite (At_slice _ _ _ H). cbn [bind].
    rewrite mrf4_spec by exact Bd. replace (4 <=? len d) with true by lia. eexists. reflexivity.
  - replace (len data <? s + 5) with true by lia. reflexivity.
Qed.
Lemma form_pos b : 1 <= form_size b <= 5.
Proof. unfold form_size. repeat destruct (_ <? _); lia. Qed.
Lemma unknown_front rt tm db tb data spare b s d : all_bytes data -> len data < 2 ^ 32 - 1 -> At data s (b :: d) -> no_type b ->
  redo_step rt tm db tb data spare s
  = ('(_, num, err) <-p compressed_at data ;; _ <-p advance num ;;
     match err with Some e => pret (Some e) | None =>
     '(_, num, err) <-p compressed_at data ;; _ <-p advance num ;;
     match err with Some e => pret (Some e) | None => _ <-p setpos (s + 1) ;; pret None end end) (s + 1) /\ At data (s + 1) d.
Proof.
  intros Hb Hs H Hn. pose proof (At_bytes _ Hb _ _ H) as B. inversion B as [|? ? Bb Bd]; subst. unfold is_byte in Bb.
  assert (E : Z.ldiff b 128 = b mod 128).
  { change 128 with (2 ^ 7) at 1. rewrite ldiff_pow2 by lia. rewrite testbit_high by lia. destruct (Z.leb_spec (2 ^ 7) b); lia. }
  assert (E0 : b :: d = be 1 b ++ d) by (rewrite be1_cons; cbn [app]; f_equal; lia). rewrite E0 in H. unfold redo_step.
  erewrite pb by (eapply r_read1; [exact H|lia]). cbv beta.
  erewrite pb by (eapply r_advance; [|exact H|lia]; lia). cbv beta. apply At_app in H. rewrite len_be in H. change (Z.of_nat 1) with 1 in H.
  erewrite pb by reflexivity. cbv beta zeta. change MLOG_MULTI_REC_END with 31. change MLOG_SINGLE_REC_FLAG with 128. change MLOG_CHECKPOINT with 56. rewrite E.
  assert (b <> 31) by (intros ->; apply (Hn EEnd I); reflexivity). replace (b =? 31) with false by lia.
  assert (X : b mod 128 <> 56) by (intro X; apply (Hn (ECheckpoint 0)); [cbn; lia|]; now rewrite X). replace (b mod 128 =? 56) with false by lia. cbn [negb].
  assert (V : validateLogHeader (b mod 128) = false) by (destruct (validateLogHeader (b mod 128)) eqn:V; [|reflexivity]; destruct (known_types _ V) as [e [He Ee]]; now destruct (Hn e He)).
  rewrite V. cbn [negb]. split; [reflexivity|exact H].
Qed.
(** In any context: after an unknown type the scan resumes at the next byte if
    the bytes that follow read as two compressed integers; otherwise it ends
    there, with an error or a crash. *)
Theorem C71_exact_refuted : forall rt tm want_db want_tb spare pre b d,
  let data := pre ++ b :: d in
  all_bytes data -> len data < 2 ^ 32 - 1 -> no_type b ->
  match two_forms d with
  | Both => redo_step rt tm want_db want_tb data spare (len pre) = ([], len pre + 1, Ok None)
  | Fails => exists s, redo_step rt tm want_db want_tb data spare (len pre) = ([], s, Ok (Some (txt "data too short, method is MatchParseCompressed")))
  | Crashes => exists s, redo_step rt tm want_db want_tb data spare (len pre) = ([], s, Panic)
  end.
Proof.
  intros rt tm db tb spare pre b d data Hb Hs Hn.
  destruct (unknown_front rt tm db tb data spare b (len pre) d Hb Hs) as [-> HA]; [exists pre; split; reflexivity|exact Hn|].
  change (txt "data too short, method is MatchParseCompressed") with err_short_compressed.
  assert (HR : forall s d' (k : P (option bytes)) (f : list Z -> reading) (Q : reading -> list bytes * Z * res (option bytes) -> Prop),
    At data s d' -> (forall s', Q Fails ([], s', Ok (Some err_short_compressed))) -> (forall s', Q Crashes ([], s', Panic)) ->
    (forall n, 0 <= n -> At data (s + n) (skipn (Z.to_nat n) d') -> Q (f (skipn (Z.to_nat n) d')) (k (s + n))) ->
    Q (read_form d' f) (('(_, num, err) <-p compressed_at data ;; _ <-p advance num ;; match err with Some e => pret (Some e) | None => k end) s)).
  { intros s d' k f Q H QF QC QK. pose proof (form_read data s d' Hb Hs H) as R. pose proof (At_range _ _ _ H) as [R1 R2]. unfold read_form. destruct d' as [|c d']; [erewrite pbx by exact R; apply QC|].
    change (@zlen) with (@len). pose proof (form_pos c) as F. destruct (Z.leb_spec (form_size c) (len (c :: d'))) as [L|L].
    - destruct R as [v R]. erewrite pb by exact R. cbv beta iota. erewrite pb by (eapply r_advance; [|exact H|lia]; lia). cbv beta. apply QK; [lia|].
      rewrite <- (firstn_skipn (Z.to_nat (form_size c)) (c :: d')) in H. apply At_app in H.
      rewrite len_firstn in H by (unfold len in *; lia). rewrite Z2Nat.id in H by lia. exact H.
    - destruct (240 <=? c); [|erewrite pbx by exact R; apply QC].
      erewrite pb by exact R. cbv beta iota. erewrite pb by (eapply r_advance; [|exact H|lia]; lia). cbv beta. apply QF. }
  unfold two_forms.
  apply (HR (len pre + 1) d _ _ (fun x y => match x with Both => y = ([], len pre + 1, Ok None) | Fails => exists s, y = ([], s, Ok (Some err_short_compressed)) | Crashes => exists s, y = ([], s, Panic) end)); try (intros; eexists; reflexivity); [exact HA|].
  intros n Hn0 HA2.
  apply (HR (len pre + 1 + n) _ _ _ (fun x y => match x with Both => y = ([], len pre + 1, Ok None) | Fails => exists s, y = ([], s, Ok (Some err_short_compressed)) | Crashes => exists s, y = ([], s, Panic) end)); [exact HA2|intros; eexists; reflexivity|intros; eexists; reflexivity|].
  intros n2 _ _. reflexivity.
Qed.
Print Assumptions C71_exact_refuted.
(** So every log with such a byte too close to its end stops there. *)
Theorem C71_log_refuted : forall rt tm want_db want_tb spare es lines b d,
  let data := flat_map enc_entry es ++ b :: d in
  all_bytes data -> len data < 2 ^ 32 - 1 -> no_type b -> 4 <= len d ->
  (forall k t, mget tm k = Some t -> want_db = [] \/ want_tb = [] \/ want_db = t_db t \/ want_tb <> t_name t) ->
  log_lines rt tm want_db want_tb (len (b :: d)) es lines ->
  (two_forms d = Fails -> parseRedoBlockData rt tm want_db want_tb data spare = (lines, Ok (Some (txt "data too short, method is MatchParseCompressed"))))
  /\ (two_forms d = Crashes -> parseRedoBlockData rt tm want_db want_tb data spare = (lines, Panic)).
Proof.
  intros rt tm db tb spare es lines b d data Hb Hs Hn Hd HF HL.
  pose proof (C71_exact_refuted rt tm db tb spare (flat_map enc_entry es) b d Hb Hs Hn) as X. cbv zeta in X. fold data in X.
  split; intro E; rewrite E in X; destruct X as [s X]; (eapply (log_stop rt tm db tb spare es lines (b :: d)); [exact Hb|exact Hs|rewrite len_cons; lia|exact HF|exact HL|exact X|]); [right; now eexists|now left].
Qed.
Print Assumptions C71_log_refuted.
Example C71_exact_case : no_type 99 /\ two_forms [224; 1; 2; 3] = Crashes /\ two_forms [1; 240; 2; 3] = Fails /\ two_forms [224; 1; 2; 3; 191] = Crashes /\ two_forms [224; 1; 2; 3; 127] = Both
  /\ forall rt, parseRedoBlockData rt (sample_tm (txt "b")) [] [] (sample_data ++ [99; 1; 240; 2; 3]) 0 = ([sample_line (txt "b")], Ok (Some (txt "data too short, method is MatchParseCompressed"))).
Proof. split; [exact (proj1 C71_resync_refuted)|repeat split]. Qed.

(** * C48 for log files: which failing reads are reported *)
Lemma blocks_end : forall a rest, redoBlocks (a ++ IoErr :: rest) = redoBlocks a.
Proof.
  induction a as [|e a IH]; intro rest; [reflexivity|]. cbn [app redoBlocks]. destruct (fst (ReadNextBytes [e] OS_FILE_LOG_BLOCK_SIZE)); [|reflexivity].
  destruct (readRedoBlockHeader b); cbn [bind]; try reflexivity. destruct (a0 =? 0); [reflexivity|]. cbv zeta. destruct (slice b _ _); cbn [bind]; try reflexivity. now rewrite IH.
Qed.
Lemma files_same before x y after : (forall r, redoFiles (Some x :: r) = redoFiles (Some y :: r)) ->
  redoFiles (before ++ Some x :: after) = redoFiles (before ++ Some y :: after).
Proof.
  intro H. induction before as [|[f|] before IH]; [apply H| |reflexivity]. cbn [app redoFiles].
  destruct (readRedoLogFileHeader f) as [[[e|] f']| |]; cbn [bind]; try reflexivity. destruct (readRedoLogFileCheckpoint f') as [[e|] f2]; [reflexivity|].
  destruct (redoBlocks f2); cbn [bind]; try reflexivity. now rewrite IH.
Qed.
Lemma header_tail e : exists o, forall f, readRedoLogFileHeader (e :: f) = (o' <- o ;; Ok (o', f)).
Proof.
  destruct e as [b|]; [|exists (Ok (Some err_read)); reflexivity]. unfold readRedoLogFileHeader. cbn [ReadNextBytes]. set (x := firstn _ _). clearbody x.
  repeat (match goal with |- context [bind ?m _] => destruct m; cbn [bind]; [|exists Panic; reflexivity|exists NoFuel; reflexivity] end). now exists (Ok None).
Qed.
(** Whatever the files: a read that fails after the first four blocks of a file
    counts as the end of that file, and whether the block between the two
    checkpoints can be read makes no difference. *)
Theorem C48_redo_refuted : forall rt tm want_db want_tb spare before after,
  (forall a rest, (4 <= List.length a)%nat ->
     ParseRedoLogs rt tm want_db want_tb (before ++ Some (a ++ IoErr :: rest) :: after) spare = ParseRedoLogs rt tm want_db want_tb (before ++ Some a :: after) spare)
  /\ forall h cp1 unused rest,
     ParseRedoLogs rt tm want_db want_tb (before ++ Some (h :: cp1 :: IoErr :: rest) :: after) spare
     = ParseRedoLogs rt tm want_db want_tb (before ++ Some (h :: cp1 :: unused :: rest) :: after) spare.
Proof.
  intros. unfold ParseRedoLogs. split; intros.
  - erewrite files_same; [reflexivity|]. intro r. destruct a as [|e1 [|e2 [|e3 [|e4 a]]]]; cbn [List.length] in H; try lia. cbn [app redoFiles].
    destruct (header_tail e1) as [o Ho]. rewrite !Ho. destruct o as [[e|]| |]; cbn [bind]; try reflexivity.
    unfold readRedoLogFileCheckpoint. destruct e2; cbn [ReadNextBytes]; [|reflexivity].
    destruct e3; cbn [ReadNextBytes]; destruct e4; cbn [ReadNextBytes]; try reflexivity; now rewrite blocks_end.
  - erewrite files_same; [reflexivity|]. intro r. cbn [redoFiles]. destruct (header_tail h) as [o Ho]. rewrite !Ho. destruct o as [[e|]| |]; cbn [bind]; try reflexivity.
    unfold readRedoLogFileCheckpoint. destruct cp1; cbn [ReadNextBytes]; [|reflexivity]. destruct unused; reflexivity.
Qed.
Print Assumptions C48_redo_refuted.
(** A file that cannot be opened, or whose header or one of whose checkpoints
    cannot be read, is reported, and no statement is printed. *)
Theorem C48_redo_partial : forall rt tm want_db want_tb spare fs f after x, Forall file_ok fs -> file_ok f ->
  (x = None \/ (exists n rest, (n = 0 \/ n = 1 \/ n = 3)%nat /\ x = Some (firstn n (log_events f) ++ IoErr :: rest)) \/ exists n, (n <= 3)%nat /\ x = Some (firstn n (log_events f))) ->
  exists e, ParseRedoLogs rt tm want_db want_tb (map (fun f => Some (log_events f)) fs ++ x :: after) spare = ([], Ok (Some e)) /\ e <> [].
Proof.
  intros rt tm db tb spare fs f after x Hfs Hf Hx.
  assert (E : exists e, redoFiles (x :: after) = Ok (inr e) /\ e <> []).
  { destruct Hf as [H1 [H2 [H3 [H4 [H5 [H6 H7]]]]]]. change (@zlen) with (@len) in *.
    assert (Z : existsb (Z.eqb 0) (skipn 16 (lf_header f)) = true) by (apply existsb_exists; exists 0; split; [exact H2|reflexivity]).
    unfold log_events in Hx. destruct Hx as [->|[[n [rest [Hn ->]]]|[n [Hn ->]]]].
    - eexists. split; [reflexivity|discriminate].
    - destruct Hn as [->|[->| ->]]; cbn [map firstn app]; (eexists; split; [cbn [redoFiles]|]).
      1: reflexivity. 1: discriminate.
      1, 3: rewrite header_case by assumption; rewrite Z; cbn [bind]; reflexivity. 1, 2: discriminate.
    - destruct n as [|[|[|[|n]]]]; try lia; cbn [map firstn app]; (eexists; split; [cbn [redoFiles]|]).
      1: reflexivity. 1: discriminate.
      1, 3, 5: rewrite header_case by assumption; rewrite Z; cbn [bind]; reflexivity. all: discriminate. }
  destruct E as [e [E He]]. exists e. split; [|exact He]. unfold ParseRedoLogs.
  assert (R : redoFiles (map (fun f => Some (log_events f)) fs ++ x :: after) = Ok (inr e)); [|now rewrite R].
  clear Hx. induction Hfs as [|f0 fs H0 _ IH]; [exact E|]. cbn [map app]. rewrite file_read by exact H0. now rewrite IH.
Qed.
Print Assumptions C48_redo_partial.
Example C48_redo_case : Forall file_ok [sample_file] /\ List.length (log_events sample_file) = 8%nat
  /\ firstn 1 (log_events sample_file) = [IoBytes (lf_header sample_file)].
Proof. split; [apply Forall_cons; [exact sample_file_ok|apply Forall_nil]|split; reflexivity]. Qed.
