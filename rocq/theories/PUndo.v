(** Lemmas about Redo.v: undo records, the loop over a log, the log's blocks. *)
From Coq Require Import ZifyBool.
From Verif Require Import GoBase Utils Ibdata Redo SpecInno SpecText SpecSql SpecRecord SpecRow SpecRedo SpecUndo PBase PWire PRec PPage PSql PStep.
Local Open Scope list_scope.
Ltac Zify.zify_post_hook ::= Z.div_mod_to_equations.

(** * The statement *)
Lemma joined_and l : joined (txt " and ") l = join_and l.
Proof. induction l as [|x [|y l] IH]; [reflexivity|reflexivity|]. cbn [joined join_and] in *. now rewrite IH. Qed.
Lemma statement_text rt t (kvs : list KeyValue) cols key old :
  Forall2 (fun kv k => fst kv = fst k /\ key_text rt (snd kv) (snd k)) kvs key ->
  Forall2 (fun c o => c_name c = fst o /\ match snd o with None => c_value c = VNil | Some x => text_of rt (c_value c) x end) cols old ->
  update_statement rt t kvs cols = undo_statement (t_db t) (t_name t) old key.
Proof.
  intros HK HC. unfold update_statement, undo_statement. rewrite !joined_and.
  assert (E1 : map (set_value_text rt) cols = map (fun o => equals (fst o) (snd o)) old).
  { clear HK. induction HC as [|c [n o] l m [H1 H2] _ IH]; [reflexivity|]. cbn [map]. rewrite IH. f_equal. unfold set_value_text, equals. cbn [fst snd] in *. subst n.
    destruct o as [x|]; [|rewrite H2; reflexivity]. apply text_of_fmt in H2. destruct H2 as [E N].
    destruct (c_value c); [contradiction|..]; rewrite E; reflexivity. }
  assert (E2 : map (where_text rt) kvs = map (fun k => equals (fst k) (Some (snd k))) key).
  { clear HC. induction HK as [|c [n o] l m [H1 H2] _ IH]; [reflexivity|]. cbn [map]. rewrite IH. f_equal. unfold where_text, equals. cbn [fst snd] in *. subst n.
    destruct H2 as [H2|[-> ->]]; [|reflexivity]. apply text_of_fmt in H2. destruct H2 as [E N]. rewrite E. reflexivity. }
  rewrite E1, E2. reflexivity.
Qed.

(** * The key *)
Lemma primary_fields t names : key_names t names -> map fd_name (getPrimaryKey t) = names.
Proof.
  intros [i1 [k [ix [i2 [E [Hno Hn]]]]]]. unfold getPrimaryKey. rewrite E, fold_left_app. cbn [fold_left snd].
  apply Forall_app in Hno. destruct Hno as [H1 H2].
  assert (S : forall l a, Forall (fun e : Z * Index => ~ clustered_name (snd e)) l ->
    fold_left (fun fields kix => let name := trim_space (ix_name (snd kix)) in
      if beq name (bs "PRIMARY") || beq name (bs "GEN_CLUST_INDEX") then
      if beq name (bs "GEN_CLUST_INDEX") then [mkField 0 (bs "DB_ROW_ID")] else ix_fields (snd kix) else fields) l a = a).
  { induction l as [|e l IH]; intros a Hl; [reflexivity|]. inversion Hl as [|? ? N Hr]; subst. cbn [fold_left].
    destruct (beq (trim_space (ix_name (snd e))) (bs "PRIMARY")) eqn:B1; [apply beq_eq in B1; exfalso; apply N; now left|].
    destruct (beq (trim_space (ix_name (snd e))) (bs "GEN_CLUST_INDEX")) eqn:B2; [apply beq_eq in B2; exfalso; apply N; now right|].
    cbn [orb]. now apply IH. }
  rewrite S by exact H2. destruct Hn as [[Hn ->]|[Hn ->]].
  - change (txt "PRIMARY") with (bs "PRIMARY") in Hn. rewrite Hn. reflexivity.
  - change (txt "GEN_CLUST_INDEX") with (bs "GEN_CLUST_INDEX") in Hn. rewrite Hn. reflexivity.
Qed.
Lemma named_column n t c : column_named n (t_columns t) c -> getColumnsByName t n = c.
Proof.
  unfold getColumnsByName. intro H. induction H as [c cs E|c c' cs E H IH]; cbn [find].
  - subst n. now rewrite beq_refl.
  - destruct (beq (c_name c) n) eqn:B; [apply beq_eq in B; contradiction|exact IH].
Qed.
Lemma key_column_is n t c : key_column n (t_columns t) c -> getColumnsByName t n = c.
Proof.
  intros [H|[H ->]]; [now apply named_column|]. unfold getColumnsByName.
  assert (X : forall cs, ~ In n (map c_name cs) -> find (fun c => beq (c_name c) n) cs = None).
  { induction cs as [|c cs IH]; intro HN; [reflexivity|]. cbn [find]. destruct (beq (c_name c) n) eqn:B; [apply beq_eq in B; exfalso; apply HN; now left|]. apply IH. intro X. apply HN. now right. }
  now rewrite X.
Qed.
Lemma fixed_is c : 0 <= c_len c < 2 ^ 63 -> i64 (GetFixedLength (c_type c) (c_len c)) = fixed_of c.
Proof.
  intro H. unfold GetFixedLength, fixed_of. cbn [existsb]. change DATA_BLOB with 5. change DATA_VARMYSQL with 12. change DATA_MYSQL with 13. change DATA_BINARY with 4.
  destruct (c_type c =? 5), (c_type c =? 12), (c_type c =? 13); cbn [orb]; try reflexivity. destruct (c_type c =? 4); now apply i64_id.
Qed.

Lemma fields_len fs : len fs <= len (flat_map enc_field fs).
Proof.
  induction fs as [|f fs IH]; [reflexivity|]. cbn [flat_map]. rewrite len_cons, len_app. enough (1 <= len (enc_field f)) by lia.
  unfold enc_field. rewrite len_app. pose proof (comp_len (fst f)). match goal with |- 1 <= _ + len ?x => pose proof (len_nonneg x) end. lia.
Qed.

(** * Bytes beyond the slice *)
Lemma slice_to_more {A} (d e : list A) n x : slice_to d n = Ok x -> slice_to (d ++ e) n = Ok x.
Proof.
  intro H. assert (Hr : 0 <= n <= len d).
  { unfold slice_to in H. destruct ((0 <=? n) && (n <=? len d)) eqn:B; [lia|discriminate]. }
  rewrite slice_to_ok in H by exact Hr. rewrite slice_to_ok by (rewrite len_app; pose proof (len_nonneg e); lia).
  rewrite <- H, firstn_app. unfold len in Hr. replace (Z.to_nat n - List.length d)%nat with O by lia. cbn [firstn]. now rewrite app_nil_r.
Qed.
(** Values that leave nothing to remark *)
Lemma key_quiet rt t n ns k ks c v bin x l m : column_named n (t_columns t) c -> 0 <= c_len c < 2 ^ 63 ->
  ParseData rt (c_type c) (c_mysql c) k (zlen k) (fixed_of c) (c_unsigned c) (c_binary c) = ([], Ok (v, bin)) ->
  key_text rt v x -> key_shown rt t ns ks l m -> key_shown rt t (n :: ns) (k :: ks) ((n, x) :: l) m.
Proof.
  intros H1 H2 H3 H4 H5. pose proof (parse_remark _ _ _ _ _ _ _ _ _ _ H3) as R. change m with ([] ++ m). rewrite R. rewrite R in H3. apply (key_cons rt t n ns k ks c v bin x l m); try assumption. now left.
Qed.
Lemma old_quiet rt t after p b c x l r m : nth_error (t_columns t) (Z.to_nat p) = Some c -> 0 <= c_len c < 2 ^ 63 ->
  (forall d, all_bytes d -> after <= zlen d ->
     exists v bin, ParseData rt (c_type c) (c_mysql c) (b ++ d) (zlen b) (fixed_of c) (c_unsigned c) (c_binary c) = ([], Ok (v, bin)) /\ text_of rt v x) ->
  old_shown rt t after l r m -> old_shown rt t after ((p, Some b) :: l) ((c_name c, Some x) :: r) m.
Proof.
  intros H1 H2 H3 H4. assert (R : [] = remark c).
  { destruct (H3 (repeat 0 (Z.to_nat after))) as [v [bin [E _]]]; [apply Forall_forall; intros y Hy; apply repeat_spec in Hy; subst; unfold is_byte; lia|unfold zlen; rewrite repeat_length; lia|].
    exact (parse_remark _ _ _ _ _ _ _ _ _ _ E). }
  change m with ([] ++ m). rewrite R. apply old_value; [exact H1|exact H2| |exact H4]. rewrite <- R. exact H3.
Qed.
Lemma parse_cap rt ty my d ex n x u b o r : ParseData rt ty my d n x u b = (o, Ok r) -> ParseDataCap rt ty my d ex n x u b = (o, Ok r).
Proof.
  unfold ParseDataCap. destruct (Z.eqb_spec ty DATA_FLOAT) as [->|]; [|destruct (Z.eqb_spec ty DATA_DOUBLE) as [->|]; [|auto]]; cbn [orb];
    unfold ParseData, ParseFloat, ParseDouble; cbn [Z.eqb Pos.eqb DATA_FLOAT DATA_DOUBLE DATA_VARCHAR DATA_CHAR DATA_FIXBINARY DATA_BINARY DATA_INT];
    intro H.
  - destruct (slice_to d 4) as [y| |] eqn:E; cbn in H; try congruence. rewrite (slice_to_more _ _ _ _ E). exact H.
  - destruct (slice_to d 8) as [y| |] eqn:E; cbn in H; try congruence. rewrite (slice_to_more _ _ _ _ E). exact H.
Qed.

Section Undo.
Variable rt : runtime.
Variable tm : gomap Table.
Variable db tb : bytes.
Variable data : bytes.
Variable spare : nat.
Hypothesis Hb : all_bytes data.
Hypothesis Hs : len data < 2 ^ 32 - 1.
Local Notation At := (At data).
Let Hs' : len data < 2 ^ 62.
Proof. lia. Qed.

Ltac adv H := erewrite pb by (eapply r_advance; [exact Hs'|exact H|lia]); cbv beta; apply At_app in H; rewrite ?len_be in H.
Ltac fc H := match type of H with PStep.At _ _ (enc_compressed ?n ++ _) => pose proof (comp_len n) end;
  erewrite pb by (eapply r_comp; [exact Hb|exact Hs'|exact H|lia]); cbv beta iota; adv H.

Lemma run_keys t : forall fields keys shown m s d, key_shown rt t (map fd_name fields) keys shown m ->
  Forall (fun k => zlen k < 2 ^ 32) keys -> At s (flat_map enc_key keys ++ d) ->
  exists kvs, undoKeys rt data spare t fields s = (m, s + len (flat_map enc_key keys), Ok (kvs, None))
  /\ Forall2 (fun kv k => fst kv = fst k /\ key_text rt (snd kv) (snd k)) kvs shown.
Proof.
  induction fields as [|f fs IH]; intros keys shown m s d HK HL H; cbn [map] in HK; inversion HK; subst; cbn [undoKeys].
  - exists []. cbn [flat_map]. unfold len. cbn [List.length]. replace (s + Z.of_nat 0) with s by lia. split; [reflexivity|constructor].
  - match goal with H : key_column _ _ ?c |- _ => rename c into col; rename H into Hcn end.
    match goal with H : ParseData _ _ _ _ _ _ _ _ = _ |- _ => rename H into HP end.
    match goal with H : key_text _ _ _ |- _ => rename H into HT end.
    inversion HL as [|? ? Hk Hks]; subst. cbn [flat_map] in *. unfold enc_key at 1 in H. unfold enc_key at 1. change (@zlen) with (@len) in *.
    rewrite <- !app_assoc in H. pose proof (len_nonneg k) as N. rewrite (key_column_is _ _ _ Hcn). fc H.
    erewrite pb by reflexivity. cbv beta. pose proof (At_range data _ _ H) as R. rewrite !len_app in R. pose proof (len_nonneg (flat_map enc_key ks)). pose proof (len_nonneg d).
    rewrite u64_id by lia.
    erewrite pb.
    2:{ unfold plift, slice_cap. destruct H as [pre [E1 E2]]. rewrite E1, <- app_assoc, <- (app_assoc k), (slice_app pre k) by lia. reflexivity. }
    cbv beta. rewrite fixed_is by assumption.
    erewrite pbo by (unfold pw; rewrite (parse_cap _ _ _ _ _ _ _ _ _ _ _ HP); reflexivity). cbv beta iota. adv H.
    edestruct IH as [kvs [E F]]; [eassumption|exact Hks|exact H|]. erewrite pbo by exact E. cbv beta iota. cbn [pret fst snd]. rewrite app_nil_r.
    eexists. split; [apply trip; rewrite !len_app; lia|]. constructor; [|exact F]. cbn [fst snd]. split; [reflexivity|exact HT].
Qed.

(** One old value *)
Lemma run_column t m p v c o sh mm shown said s d : old_shown rt t m ((p, v) :: shown) ((c_name c, o) :: sh) said -> field_ok (p, v) ->
  nth_error (t_columns t) (Z.to_nat p) = Some c -> said = (match v with None => [] | Some _ => remark c end) ++ mm -> m <= len d ->
  At s (enc_field (p, v) ++ d) ->
  exists c', undoColumn rt data spare t s = (match v with None => [] | Some _ => remark c end, s + len (enc_field (p, v)), Ok (inl c'))
  /\ c_name c' = c_name c /\ match o with None => c_value c' = VNil | Some x => text_of rt (c_value c') x end.
Proof.
  intros HO [F1 F2] Hc Em Hd H. cbn [fst snd] in *. unfold enc_field in *. cbn [fst snd] in *. rewrite <- !app_assoc in H.
  pose proof (At_range data _ _ H) as R0. rewrite len_app in R0.
  assert (G : getColumnByPos t p = Some c).
  { unfold getColumnByPos. destruct (Z.ltb_spec p (len (t_columns t))) as [|B]; [exact Hc|].
    exfalso. assert (Hc2 : nth_error (t_columns t) (Z.to_nat p) <> None) by congruence. apply nth_error_Some in Hc2. unfold len in B. lia. }
  unfold undoColumn. fc H. rewrite G.
  inversion HO; subst.
  - change (2 ^ 32 - 1) with 4294967295 in *. rewrite <- ?app_assoc in H. fc H.
    erewrite pb by reflexivity. cbv beta. pose proof (At_range data _ _ H). pose proof (len_nonneg d). rewrite u64_id by lia.
    match goal with |- context [if ?b then _ else _] => destruct b eqn:B; [|lia] end.
    eexists. split; [unfold pret; apply trip; rewrite !len_app; lia|]. split; [cbn [set_value c_name]; congruence|reflexivity].
  - change (@zlen) with (@len) in *. rewrite <- ?app_assoc in H. pose proof (len_nonneg b). fc H.
    erewrite pb by reflexivity. cbv beta. pose proof (At_range data _ _ H) as R. rewrite !len_app in R. pose proof (len_nonneg d). rewrite u64_id by lia.
    match goal with |- context [if ?b then _ else _] => destruct b eqn:B; [lia|] end.
    match goal with H1 : nth_error _ _ = Some c0 |- _ => rewrite H1 in Hc; assert (EC : c0 = c) by congruence; subst c0 end.
    rewrite fixed_is by assumption. pose proof (At_bytes data Hb _ _ H) as AB. apply all_bytes_app in AB. destruct AB as [_ AB].
    erewrite pb by (unfold plift; rewrite (At_slice data _ _ H); reflexivity). cbv beta.
    match goal with HP : forall d, all_bytes d -> _ |- _ => destruct (HP _ AB) as [vv [bin [EP TP]]]; [change (@zlen) with (@len); lia|]; erewrite pbo by (unfold pw; erewrite parse_cap; [reflexivity|exact EP]) end.
    cbv beta iota. adv H. cbn [pret fst snd]. rewrite app_nil_r. eexists. split; [apply trip; rewrite !len_app; lia|]. split; [reflexivity|cbn [set_value c_value]; assumption].
Qed.
Lemma old_first t m p v l shown said : old_shown rt t m ((p, v) :: l) shown said -> exists c o sh mm, nth_error (t_columns t) (Z.to_nat p) = Some c /\ shown = (c_name c, o) :: sh /\ old_shown rt t m l sh mm
  /\ said = (match v with None => [] | Some _ => remark c end) ++ mm.
Proof. intro HO. inversion HO; subst; eauto 12. Qed.
Lemma run_old t m : forall changes shown said s d fuel i n, old_shown rt t m changes shown said -> Forall field_ok changes -> m <= len d ->
  At s (flat_map enc_field changes ++ d) -> n = i + len changes -> (List.length changes < fuel)%nat ->
  exists cols s', undoColumns fuel rt data spare t i n s = (said, s', Ok (cols, None)) /\ 0 <= s' < 2 ^ 62
  /\ Forall2 (fun c o => c_name c = fst o /\ match snd o with None => c_value c = VNil | Some x => text_of rt (c_value c) x end) cols shown.
Proof.
  induction changes as [|[p v] changes IH]; intros shown said s d fuel i n HO HF Hd H Hn Hfu; (destruct fuel as [|f]; [cbn [List.length] in Hfu; lia|]); cbn [undoColumns].
  - inversion HO; subst. unfold len at 1. cbn [List.length]. destruct (Z.ltb_spec i (i + Z.of_nat 0)); [lia|]. pose proof (At_range data _ _ H). pose proof (len_nonneg (flat_map enc_field [] ++ d)). eexists _, _. split; [reflexivity|]. split; [unfold len in *; lia|constructor].
  - rewrite len_cons in Hn. pose proof (len_nonneg changes). destruct (Z.ltb_spec i n); [|lia].
    inversion HF as [|? ? F1 Hr]; subst x l. cbn [flat_map] in H. rewrite <- app_assoc in H.
    destruct (old_first _ _ _ _ _ _ _ HO) as [c [o [sh [mm [Hc [-> [Hsh Em]]]]]]].
    edestruct (run_column t m p v c o sh mm changes said s) as [c' [E1 [N1 V1]]]; [exact HO|exact F1|exact Hc|exact Em| |exact H|].
    { pose proof (len_nonneg (flat_map enc_field changes)). rewrite len_app. lia. }
    apply At_app in H. erewrite pbo by exact E1. cbv beta iota.
    edestruct (IH sh mm (s + len (enc_field (p, v))) d f (i + 1) n) as [cols [s2 [E2 [B2 F]]]]; [exact Hsh|exact Hr|exact Hd|exact H|lia|cbn [List.length] in Hfu; lia|].
    erewrite pbo by exact E2. cbv beta iota. cbn [pret fst snd]. rewrite app_nil_r, <- Em. eexists _, _. split; [reflexivity|]. split; [exact B2|]. constructor; [split; assumption|exact F].
Qed.
(** A position the table does not have *)
Lemma run_lost t m p v ch2 : len (t_columns t) <= p -> forall ch1 shown said s d fuel i n, old_shown rt t m ch1 shown said -> Forall field_ok (ch1 ++ (p, v) :: ch2) -> m <= len d ->
  At s (flat_map enc_field (ch1 ++ (p, v) :: ch2) ++ d) -> n = i + len (ch1 ++ (p, v) :: ch2) -> (List.length ch1 < fuel)%nat ->
  exists cols, undoColumns fuel rt data spare t i n s = (said, s + len (flat_map enc_field ch1) + len (enc_compressed p), Ok (cols, Some err_field)).
Proof.
  intro Hp. induction ch1 as [|[q w] ch1 IH]; intros shown said s d fuel i n HO HF Hd H Hn Hfu; (destruct fuel as [|f]; [cbn [List.length] in Hfu; lia|]); cbn [undoColumns].
  - inversion HO; subst. cbn [app] in *. rewrite len_cons. pose proof (len_nonneg ch2). destruct (Z.ltb_spec i (i + (1 + len ch2))); [|lia].
    inversion HF as [|? ? [F1 F2] Hr]; subst x l. cbn [fst snd] in *. cbn [flat_map] in *. unfold enc_field at 1 in H. cbn [fst snd] in H. rewrite <- !app_assoc in H.
    assert (G : getColumnByPos t p = None) by (unfold getColumnByPos; destruct (Z.ltb_spec p (len (t_columns t))); [lia|reflexivity]).
    assert (E : undoColumn rt data spare t s = ([], s + len (enc_compressed p), Ok (inr err_field))) by (unfold undoColumn; fc H; rewrite G; reflexivity).
    erewrite pb by exact E. cbv beta iota. eexists. unfold pret. apply trip. rewrite len_nil. lia.
  - cbn [app] in *. rewrite len_cons in Hn. pose proof (len_nonneg (ch1 ++ (p, v) :: ch2)). destruct (Z.ltb_spec i n); [|lia].
    inversion HF as [|? ? F1 Hr]; subst x l. cbn [flat_map] in *. rewrite <- app_assoc in H.
    destruct (old_first _ _ _ _ _ _ _ HO) as [c [o [sh [mm [Hc [-> [Hsh Em]]]]]]].
    edestruct (run_column t m q w c o sh mm ch1 said s) as [c' [E1 _]]; [exact HO|exact F1|exact Hc|exact Em| |exact H|].
    { pose proof (len_nonneg (flat_map enc_field (ch1 ++ (p, v) :: ch2))). rewrite len_app. lia. }
    apply At_app in H. erewrite pbo by exact E1. cbv beta iota.
    edestruct (IH sh mm (s + len (enc_field (q, w))) d f (i + 1) n) as [cols E2]; [exact Hsh|exact Hr|exact Hd|exact H|lia|cbn [List.length] in Hfu; lia|].
    erewrite pbo by exact E2. cbv beta iota. cbn [pret fst snd]. rewrite app_nil_r, <- Em, len_app. eexists. apply trip. lia.
Qed.

Ltac f1 H := erewrite pb by (eapply r_read1; [exact H|lia]); cbv beta; adv H.
Lemma run_much s n d : At s (enc_much_compressed n ++ d) -> 0 <= n < 2 ^ 32 ->
  readat MatchUllReadMuchCompressed data s = ([], s, Ok (n, None)).
Proof.
  intros H Hn. eapply r_readat; [exact H|]. apply At_range in H. pose proof (len_nonneg (enc_much_compressed n ++ d)) as N.
  apply much_read_small; [exact Hn|]. unfold enc_much_compressed in *. destruct (Z.ltb_spec n (2 ^ 32)); [|lia]. unfold len in *. lia.
Qed.
Lemma undo_type u : undo_ok u -> let b := un_type u + 16 * un_cmpl u + (if un_extern u then 128 else 0) in
  0 <= b < 256 /\ Z.land (Z.ldiff b TRX_UNDO_UPD_EXTERN) (TRX_UNDO_CMPL_INFO_MULT - 1) = un_type u.
Proof.
  intros [Ht [Hc _]] b. cbn [In] in Ht. unfold UNDO_INSERT, UNDO_UPDATE, UNDO_UPDATE_DELETED, UNDO_DELETE in Ht.
  assert (T : 11 <= un_type u <= 14) by lia. assert (B : 0 <= b < 256) by (unfold b; destruct (un_extern u); lia).
  split; [exact B|]. change TRX_UNDO_UPD_EXTERN with (2 ^ 7). change (TRX_UNDO_CMPL_INFO_MULT - 1) with (2 ^ 4 - 1).
  rewrite ldiff_pow2 by lia. rewrite testbit_high by lia. rewrite land_ones by lia. change (2 ^ 4) with 16. change (2 ^ 7) with 128.
  unfold b in *. destruct (un_extern u).
  - destruct (Z.leb_spec 128 (un_type u + 16 * un_cmpl u + 128)); lia.
  - destruct (Z.leb_spec 128 (un_type u + 16 * un_cmpl u + 0)); lia.
Qed.
Lemma filter_requested t : (db = [] \/ tb = [] \/ db = t_db t \/ tb <> t_name t) ->
  (redo_filter db tb t = true <-> requested db tb (t_db t) (t_name t)).
Proof.
  intro H. unfold redo_filter, requested.
  destruct (beq (t_db t) db) eqn:B1; [apply beq_eq in B1|apply beq_neq in B1].
  - destruct (beq (t_name t) tb) eqn:B2; [apply beq_eq in B2; subst; intuition|]. apply beq_neq in B2. rewrite beq_eq. intuition congruence.
  - destruct (beq db []) eqn:B3; destruct (beq tb []) eqn:B4; cbn [andb negb]; rewrite ?beq_eq, ?beq_neq in *; intuition congruence.
Qed.

(** the undo record's front, up to the key *)
Lemma undo_front u s d start n : At s (enc_undo u ++ d) -> undo_ok u -> undo_room u (len d) -> start = s -> n = len (enc_undo u) ->
  exists s1, s1 = s + len (enc_undo_head u) /\
  At s1 (skipn (List.length (enc_undo_head u)) (enc_undo u) ++ d) /\
  mlogUndoInsert_body rt tm db tb data spare start n s =
  (match getTableByTableID tm (un_table u) with
  | None => _ <-p setpos (start + n) ;; pret (Some (err_table (un_table u)))
  | Some table =>
    '(keys, err) <-p undoKeys rt data spare table (getPrimaryKey table) ;;
    match err with Some e => pret (Some e) | None =>
    err <-p (if un_type u =? TRX_UNDO_UPD_EXIST_REC then
             '(columnNum, num, err) <-p compressed_at data ;;
             match err with
             | Some e => pret (Some e)
             | None =>
               _ <-p advance num ;;
               '(columns, err) <-p undoColumns (S (List.length data)) rt data spare table 0 columnNum ;;
               match err with
               | Some e => pret (Some e)
               | None =>
                 _ <-p (if redo_filter db tb table
                        then pw (makeSQL rt table keys columns) else pret tt) ;;
                 pret None
               end
             end
           else pret None) ;;
    match err with
    | Some e => pret (Some e)
    | None =>
      pos <-p getpos ;;
      _ <-p (if negb (u64 (pos - start) =? n)
             then setpos (start + n) else pret tt) ;;
      pret None
    end
    end
  end) s1.
Proof.
  intros H Hok Hd -> ->. destruct (undo_type u Hok) as [Hb1 Hty]. destruct Hok as [Ht [Hc [Hno [Htb [Hin [Htrx [Hroll [Hks [Hch [Hcf Hlen]]]]]]]]]].
  change (@zlen) with (@len) in *. pose proof (At_range data _ _ H) as R. rewrite len_app in R. pose proof (len_nonneg (enc_undo u)) as N0.
  assert (ER : skipn (List.length (enc_undo_head u)) (enc_undo u) = flat_map enc_key (un_keys u) ++ (if (un_type u =? UNDO_UPDATE) || (un_type u =? UNDO_UPDATE_DELETED)
      then enc_compressed (zlen (un_changes u)) ++ flat_map enc_field (un_changes u) else []) ++ un_more u) by (unfold enc_undo; apply skipn_app_len).
  rewrite ER. set (tl := flat_map enc_key (un_keys u) ++ _ ++ un_more u) in *. clearbody tl.
  assert (EU : enc_undo u = enc_undo_head u ++ tl).
  { rewrite <- ER. rewrite <- (firstn_skipn (List.length (enc_undo_head u)) (enc_undo u)) at 1. f_equal. unfold enc_undo. apply firstn_app_len. }
  assert (Hd' : un_type u = UNDO_INSERT \/ high_size (un_roll u) <= len tl + len d) by (destruct Hd as [Hd|Hd]; [now left|right]; change (@zlen) with (@len) in *; rewrite EU, len_app in Hd; lia). clear Hd. pose proof (len_nonneg d) as Nd. pose proof (len_nonneg tl) as Nt.
  rewrite EU in H. clear ER. unfold mlogUndoInsert_body. rewrite (u64_id (s + len (enc_undo u))) by lia. unfold enc_undo_head in *. rewrite <- !app_assoc in H.
  eexists. split; [reflexivity|].
  f1 H. change (Z.of_nat 1) with 1 in H. cbv zeta. rewrite Hty.
  erewrite pb by (eapply run_much; [exact H|lia]). cbv beta iota. rewrite much_size_small by lia.
  assert (L1 : forall m, 0 <= m < 2 ^ 32 -> 1 <= len (enc_much_compressed m) <= 5).
  { intros m Hm. unfold enc_much_compressed. destruct (Z.ltb_spec m (2 ^ 32)); [apply comp_len|lia]. }
  pose proof (L1 _ Hno). pose proof (L1 _ Htb). adv H.
  erewrite pb by (eapply run_much; [exact H|lia]). cbv beta iota. rewrite much_size_small by lia. adv H.
  change TRX_UNDO_INSERT_REC with 11. unfold UNDO_INSERT in *. destruct (Z.eqb_spec (un_type u) 11) as [E11|E11]; cbn [negb].
  - erewrite pb by reflexivity. cbv beta. rewrite app_nil_r. cbn [app] in H.
    replace (s + (len (be 1 (un_type u + 16 * un_cmpl u + (if un_extern u then 128 else 0)) ++ enc_much_compressed (un_no u) ++ enc_much_compressed (un_table u))))
      with (s + 1 + len (enc_much_compressed (un_no u)) + len (enc_much_compressed (un_table u))) by (rewrite !len_app, len_be; lia).
    split; [exact H|reflexivity].
  - rewrite <- !app_assoc in H.
    assert (EX : exists s1, (_ <-p readat (fun d => index d 0) data ;; _ <-p advance 1 ;; _ <-p MatchUllReadComPressed data ;; _ <-p MatchUllReadComPressed data ;; pret tt)
       (s + 1 + len (enc_much_compressed (un_no u)) + len (enc_much_compressed (un_table u))) = ([], s1, Ok tt)
       /\ s1 = s + 1 + len (enc_much_compressed (un_no u)) + len (enc_much_compressed (un_table u)) + 1 + len (enc_u64_compressed (un_trx u)) + len (enc_u64_compressed (un_roll u))
       /\ At s1 (tl ++ d)).
    { erewrite pb by (eapply r_byte; [exact H|lia]). cbv beta. adv H. change (Z.of_nat 1) with 1 in H.
      assert (0 <= len tl) by apply len_nonneg. pose proof (u64_len (un_roll u)). pose proof (size_range (un_roll u / 2 ^ 32)). pose proof (high_range (un_trx u)). destruct Hd' as [Hd'|Hd']; [contradiction|].
      edestruct (r_ull data Hb Hs' _ _ _ H) as [v1 E1]; [exact Htrx|rewrite !len_app; lia|]. erewrite pb by exact E1. cbv beta. apply At_app in H.
      edestruct (r_ull data Hb Hs' _ _ _ H) as [v2 E2]; [exact Hroll|rewrite !len_app; lia|]. erewrite pb by exact E2. cbv beta. apply At_app in H.
      eexists. split; [reflexivity|]. split; [reflexivity|exact H]. }
    destruct EX as [s1 [E1 [E2 A1]]]. erewrite pb by exact E1. cbv beta.
    match goal with |- PStep.At _ ?x _ /\ _ => replace x with s1 by (rewrite E2, !len_app, !len_be; lia) end.
    split; [exact A1|reflexivity].
Qed.

(** Too few bytes after the roll pointer: the reader crashes there *)
Lemma undo_late u s d start n : At s (enc_undo u ++ d) -> undo_ok u -> ~ undo_room u (len d) -> start = s -> n = len (enc_undo u) ->
  exists s1, mlogUndoInsert_body rt tm db tb data spare start n s = ([], s1, Panic).
Proof.
  intros H Hok Hd -> ->. destruct (undo_type u Hok) as [Hb1 Hty]. destruct Hok as [Ht [Hc [Hno [Htb [Hin [Htrx [Hroll [Hks [Hch [Hcf Hlen]]]]]]]]]].
  change (@zlen) with (@len) in *. pose proof (At_range data _ _ H) as R. rewrite len_app in R. pose proof (len_nonneg (enc_undo u)) as N0.
  unfold undo_room in Hd. change (@zlen) with (@len) in Hd.
  assert (E11 : un_type u <> UNDO_INSERT) by tauto. assert (Hd' : len (enc_undo u) - len (enc_undo_head u) + len d < high_size (un_roll u)) by lia. clear Hd.
  unfold enc_undo in H. rewrite <- app_assoc in H.
  match type of H with PStep.At _ _ (_ ++ ?x) => set (tl := x) in *; assert (Lt : len tl = len (enc_undo u) - len (enc_undo_head u) + len d) by (unfold tl, enc_undo; rewrite !len_app; lia); clearbody tl end.
  rewrite <- Lt in Hd'. clear Lt. pose proof (len_nonneg d) as Nd. pose proof (len_nonneg tl) as Nt.
  unfold mlogUndoInsert_body. rewrite (u64_id (s + len (enc_undo u))) by lia. unfold enc_undo_head in *. rewrite <- !app_assoc in H.
  f1 H. change (Z.of_nat 1) with 1 in H. cbv zeta. rewrite Hty.
  erewrite pb by (eapply run_much; [exact H|lia]). cbv beta iota. rewrite much_size_small by lia.
  assert (L1 : forall m, 0 <= m < 2 ^ 32 -> 1 <= len (enc_much_compressed m) <= 5).
  { intros m Hm. unfold enc_much_compressed. destruct (Z.ltb_spec m (2 ^ 32)); [apply comp_len|lia]. }
  pose proof (L1 _ Hno). pose proof (L1 _ Htb). adv H.
  erewrite pb by (eapply run_much; [exact H|lia]). cbv beta iota. rewrite much_size_small by lia. adv H.
  change TRX_UNDO_INSERT_REC with 11. unfold UNDO_INSERT in *. destruct (Z.eqb_spec (un_type u) 11); [contradiction|]. cbn [negb].
  rewrite <- !app_assoc in H.
  assert (EX : exists s1, (_ <-p readat (fun d => index d 0) data ;; _ <-p advance 1 ;; _ <-p MatchUllReadComPressed data ;; _ <-p MatchUllReadComPressed data ;; pret tt)
     (s + 1 + len (enc_much_compressed (un_no u)) + len (enc_much_compressed (un_table u))) = ([], s1, Panic)).
  { erewrite pb by (eapply r_byte; [exact H|lia]). cbv beta. adv H. change (Z.of_nat 1) with 1 in H.
    pose proof (u64_len (un_roll u)). pose proof (size_range (un_roll u / 2 ^ 32)). pose proof (high_range (un_trx u)).
    edestruct (r_ull data Hb Hs' _ _ _ H) as [v1 E1]; [exact Htrx|rewrite !len_app; lia|]. erewrite pb by exact E1. cbv beta. apply At_app in H.
    pose proof (r_ull_short data Hb Hs' _ _ _ H Hroll Hd') as E2. unfold pbind. rewrite E2. eexists. reflexivity. }
  destruct EX as [s1 E1]. unfold pbind at 1. rewrite E1. eexists. reflexivity.
Qed.

Lemma run_undo u lines s d : At s (be 2 (zlen (enc_undo u)) ++ enc_undo u ++ d) -> undo_ok u ->
  undo_lines rt tm db tb (len d) u lines ->
  (un_type u = UNDO_UPDATE -> forall t, mget tm (un_table u) = Some t -> db = [] \/ tb = [] \/ db = t_db t \/ tb <> t_name t) ->
  exists e, mlogUndoInsert rt tm db tb data spare s = (lines, s + 2 + len (enc_undo u), Ok e).
Proof.
  intros H Hok HU HF. pose proof Hok as Hok2. destruct Hok2 as [_ [_ [_ [_ [_ [_ [_ [Hks [Hch [Hcf Hlen]]]]]]]]]].
  change (@zlen) with (@len) in *. pose proof (len_nonneg (enc_undo u)) as N0.
  unfold mlogUndoInsert. erewrite pb by (eapply r_read2; [exact H|lia]). cbv beta. adv H. change (Z.of_nat 2) with 2 in H.
  erewrite pb by reflexivity. cbv beta. unfold precover.
  assert (RD : undo_room u (len d) \/ (~ undo_room u (len d) /\ lines = [])).
  { unfold undo_room in *. change (@zlen) with (@len) in *. inversion HU; subst; change (@zlen) with (@len) in *; try (left; assumption); [|right; split; [assumption|reflexivity]].
    destruct (Z.eq_dec (un_type u) UNDO_INSERT); [now left; left|]. destruct (Z_le_gt_dec (high_size (un_roll u)) (len (enc_undo u) - len (enc_undo_head u) + len d)); [now left; right|].
    right. split; [intros [X|X]; [contradiction|lia]|reflexivity]. }
  destruct RD as [Hd|[Hd ->]].
  2:{ destruct (undo_late u (s + 2) d (s + 2) (len (enc_undo u)) H Hok Hd eq_refl eq_refl) as [s1 ->]. pose proof (At_range data _ _ H) as R. rewrite len_app in R. pose proof (len_nonneg d).
      erewrite pb by reflexivity. rewrite u64_id by lia. eexists. reflexivity. }
  destruct (undo_front u (s + 2) d (s + 2) (len (enc_undo u)) H Hok Hd eq_refl eq_refl) as [s1 [Es1 [H1 ->]]].
  pose proof (At_range data _ _ H) as R. rewrite len_app in R.
  assert (ER : skipn (List.length (enc_undo_head u)) (enc_undo u) = flat_map enc_key (un_keys u) ++ (if (un_type u =? UNDO_UPDATE) || (un_type u =? UNDO_UPDATE_DELETED)
      then enc_compressed (len (un_changes u)) ++ flat_map enc_field (un_changes u) else []) ++ un_more u) by (unfold enc_undo; apply skipn_app_len).
  rewrite ER, <- !app_assoc in H1. clear ER. unfold getTableByTableID.
  assert (FIN : forall s2, 0 <= s2 < 2 ^ 62 -> (pos <-p getpos ;;
      _ <-p (if negb (u64 (pos - (s + 2)) =? len (enc_undo u)) then setpos (s + 2 + len (enc_undo u)) else pret tt) ;;
      pret (A := option bytes) None) s2 = ([], s + 2 + len (enc_undo u), Ok None)).
  { intros s2 Hs2. erewrite pb by reflexivity. cbv beta. destruct (Z.eqb_spec (u64 (s2 - (s + 2))) (len (enc_undo u))) as [E|E]; cbn [negb].
    - erewrite pb by reflexivity. unfold pret. apply trip. unfold u64 in E. pose proof (len_nonneg d); pose proof (len_nonneg (enc_undo u)); lia.
    - erewrite pb by reflexivity. reflexivity. }
  change TRX_UNDO_UPD_EXIST_REC with UNDO_UPDATE.
  assert (UPD : forall t names key old m m', mget tm (un_table u) = Some t -> un_type u = UNDO_UPDATE -> key_names t names -> key_shown rt t names (un_keys u) key m ->
    old_shown rt t (len d) (un_changes u) old m' -> exists kvs s2, undoKeys rt data spare t (getPrimaryKey t) s1 = (m, s2, Ok (kvs, None)) /\ exists s3,
    (if un_type u =? UNDO_UPDATE then
             '(columnNum, num, err) <-p compressed_at data ;;
             match err with
             | Some e => pret (Some e)
             | None =>
               _ <-p advance num ;;
               '(columns, err) <-p undoColumns (S (List.length data)) rt data spare t 0 columnNum ;;
               match err with
               | Some e => pret (Some e)
               | None =>
                 _ <-p (if redo_filter db tb t
                        then pw (makeSQL rt t kvs columns) else pret tt) ;;
                 pret (A := option bytes) None
               end
             end
           else pret None) s2 = (m' ++ (if redo_filter db tb t then [undo_statement (t_db t) (t_name t) old key] else []), s3, Ok None) /\ 0 <= s3 < 2 ^ 62).
  { intros t names key old m m' Hg Hty HN HK HO.
    edestruct (run_keys t (getPrimaryKey t) (un_keys u) key m s1) as [kvs [E F]]; [now rewrite (primary_fields t names HN)|exact Hks|exact H1|].
    exists kvs. eexists. split; [exact E|]. clear E. apply At_app in H1. rewrite Hty in *. change (UNDO_UPDATE =? UNDO_UPDATE) with true in *. cbn [orb] in H1. cbv iota. rewrite <- !app_assoc in H1.
    pose proof (len_nonneg (un_changes u)). fc H1.
    match type of H1 with PStep.At _ ?s0 (_ ++ ?d0) => destruct (run_old t (len d) (un_changes u) old m' s0 d0 (S (List.length data)) 0 (len (un_changes u))) as [cols [s2 [E2 [B2 F2]]]] end; [exact HO|exact Hcf| |exact H1|reflexivity| |];
      [pose proof (len_nonneg (un_more u)); rewrite len_app; lia| |].
    { apply At_range in H1. rewrite len_app in H1. pose proof (fields_len (un_changes u)).
      match type of H1 with _ /\ _ + (_ + len ?x) = _ => pose proof (len_nonneg x) end. unfold len, bytes in *. lia. }
    erewrite pbo by exact E2. cbv beta iota. exists s2. split; [|exact B2].
    destruct (redo_filter db tb t).
    - erewrite pbo by reflexivity. cbn [fst snd pret app]. now rewrite (statement_text rt t kvs cols key old F F2).
    - erewrite pb by reflexivity. reflexivity. }
  inversion HU as [Hg|NR|t names key m Hg _ Hty HN HK|t names key old m m' Hg _ Hty HN HK HO HR|t names key old m m' Hg _ Hty HN HK HO HR]; subst lines; [| contradiction | | |]; rewrite Hg.
  - eexists. erewrite pb by reflexivity. reflexivity.
  - edestruct (run_keys t (getPrimaryKey t) (un_keys u) key m s1) as [kvs [E F]]; [now rewrite (primary_fields t names HN)|exact Hks|exact H1|].
    erewrite pbo by exact E. cbv beta iota. apply At_app in H1. apply At_range in H1.
    destruct (Z.eqb_spec (un_type u) UNDO_UPDATE); [contradiction|]. erewrite pb by reflexivity. cbv beta iota.
    eexists. rewrite FIN; [cbn [fst snd]; rewrite app_nil_r; reflexivity|]. match type of H1 with _ /\ _ + len ?x = _ => pose proof (len_nonneg x) end. lia.
  - destruct (UPD t names key old m m' Hg Hty HN HK HO) as [kvs [s2 [E1 [s3 [E2 B3]]]]]. erewrite pbo by exact E1. cbv beta iota.
    erewrite pbo by exact E2. cbv iota. rewrite FIN by exact B3. cbn [fst snd].
    destruct (redo_filter db tb t) eqn:EF; [apply (filter_requested t (HF Hty t Hg)) in EF; contradiction|]. eexists. rewrite !app_nil_r. reflexivity.
  - destruct (UPD t names key old m m' Hg Hty HN HK HO) as [kvs [s2 [E1 [s3 [E2 B3]]]]]. erewrite pbo by exact E1. cbv beta iota.
    erewrite pbo by exact E2. cbv iota. rewrite FIN by exact B3. cbn [fst snd].
    apply (filter_requested t (HF Hty t Hg)) in HR. rewrite HR. eexists. rewrite app_nil_r. reflexivity.
Qed.
(** An update record with such a position *)
Lemma undo_lost u t names key m m' ch1 p v ch2 shown s d : At s (be 2 (zlen (enc_undo u)) ++ enc_undo u ++ d) -> undo_ok u -> undo_room u (len d) ->
  mget tm (un_table u) = Some t -> un_type u = UNDO_UPDATE -> key_names t names -> key_shown rt t names (un_keys u) key m ->
  un_changes u = ch1 ++ (p, v) :: ch2 -> old_shown rt t (len d) ch1 shown m' -> len (t_columns t) <= p ->
  exists err, mlogUndoInsert rt tm db tb data spare s
  = (m ++ m', s + 2 + len (enc_undo u) - len (un_more u) - len (flat_map enc_field ((p, v) :: ch2)) + len (enc_compressed p), Ok err).
Proof.
  intros H Hok Hd Hg Hty HN HK HC HO Hp. pose proof Hok as Hok2. destruct Hok2 as [_ [_ [_ [_ [_ [_ [_ [Hks [Hch [Hcf Hlen]]]]]]]]]].
  change (@zlen) with (@len) in *. pose proof (len_nonneg (enc_undo u)) as N0.
  unfold mlogUndoInsert. erewrite pb by (eapply r_read2; [exact H|lia]). cbv beta. adv H. change (Z.of_nat 2) with 2 in H.
  erewrite pb by reflexivity. cbv beta. unfold precover.
  destruct (undo_front u (s + 2) d (s + 2) (len (enc_undo u)) H Hok Hd eq_refl eq_refl) as [s1 [Es1 [H1 ->]]].
  pose proof (At_range data _ _ H) as R. rewrite len_app in R.
  assert (ER : skipn (List.length (enc_undo_head u)) (enc_undo u) = flat_map enc_key (un_keys u) ++ (if (un_type u =? UNDO_UPDATE) || (un_type u =? UNDO_UPDATE_DELETED)
      then enc_compressed (len (un_changes u)) ++ flat_map enc_field (un_changes u) else []) ++ un_more u) by (unfold enc_undo; apply skipn_app_len).
  assert (EL : len (enc_undo u) = len (enc_undo_head u) + len (skipn (List.length (enc_undo_head u)) (enc_undo u))).
  { rewrite <- (firstn_skipn (List.length (enc_undo_head u)) (enc_undo u)) at 1. rewrite len_app. f_equal. unfold enc_undo. now rewrite firstn_app_len. }
  rewrite ER in EL. rewrite ER, <- !app_assoc in H1. clear ER. unfold getTableByTableID. rewrite Hg. change TRX_UNDO_UPD_EXIST_REC with UNDO_UPDATE.
  rewrite Hty in *. change (UNDO_UPDATE =? UNDO_UPDATE) with true in *. cbn [orb] in H1, EL. cbv iota in H1, EL. cbv iota. rewrite !len_app in EL.
  edestruct (run_keys t (getPrimaryKey t) (un_keys u) key m s1) as [kvs [E F]]; [now rewrite (primary_fields t names HN)|exact Hks|exact H1|].
  erewrite pbo by exact E. cbv beta iota. clear E. apply At_app in H1. rewrite <- !app_assoc in H1.
  pose proof (len_nonneg (un_changes u)). pose proof (comp_len (len (un_changes u))) as LC.
  assert (X : ('(columnNum, num, err) <-p compressed_at data ;;
             match err with
             | Some e => pret (Some e)
             | None =>
               _ <-p advance num ;;
               '(columns, err) <-p undoColumns (S (List.length data)) rt data spare t 0 columnNum ;;
               match err with
               | Some e => pret (Some e)
               | None =>
                 _ <-p (if redo_filter db tb t
                        then pw (makeSQL rt t kvs columns) else pret tt) ;;
                 pret (A := option bytes) None
               end
             end) (s1 + len (flat_map enc_key (un_keys u))) = (m', s + 2 + len (enc_undo u) - len (un_more u) - len (flat_map enc_field ((p, v) :: ch2)) + len (enc_compressed p), Ok (Some err_field))).
  { fc H1. rewrite HC in *.
    match type of H1 with PStep.At _ ?s0 (_ ++ ?d0) => destruct (run_lost t (len d) p v ch2 Hp ch1 shown m' s0 d0 (S (List.length data)) 0 (len (ch1 ++ (p, v) :: ch2))) as [cols E2] end; [exact HO|exact Hcf| |exact H1|reflexivity| |].
    { pose proof (len_nonneg (un_more u)); rewrite len_app; lia. }
    { apply At_range in H1. rewrite flat_map_app, !len_app in H1. pose proof (fields_len ch1).
      pose proof (len_nonneg (flat_map enc_field ((p, v) :: ch2))). pose proof (len_nonneg (un_more u)). pose proof (len_nonneg d). unfold len, bytes in *. lia. }
    rewrite flat_map_app, (len_app (flat_map enc_field ch1)) in EL. erewrite pbo by exact E2. cbv beta iota. cbn [pret fst snd]. rewrite !app_nil_r. apply trip. lia. }
  erewrite pbo by exact X. cbv beta iota. cbn [pret fst snd]. rewrite app_nil_r. eexists. reflexivity.
Qed.
End Undo.

(** An undo record of an update as InnoDB writes it (a key, a change, a roll
    pointer of seven bytes) leaves enough bytes whatever follows. *)
Lemma size_small n : 0 <= n < 2 ^ 24 -> len (enc_compressed n) <= 4.
Proof. intro H. rewrite len_enc_compressed. unfold MatchGetCompressedSize. repeat match goal with |- context [?a <? ?b] => destruct (Z.ltb_spec a b) end; lia. Qed.
Lemma update_room u after : un_type u = UNDO_UPDATE -> un_keys u <> [] -> un_changes u <> [] -> 0 <= un_roll u < 2 ^ 56 -> 0 <= after -> undo_room u after.
Proof.
  intros Ht Hk Hc Hr Ha. right. unfold high_size, enc_undo. change (@zlen) with (@len). rewrite Ht. change (UNDO_UPDATE =? UNDO_UPDATE) with true. cbn [orb]. cbv iota. rewrite !len_app.
  assert (H1 : len (enc_compressed (un_roll u / 2 ^ 32)) <= 4) by (apply size_small; lia).
  destruct (un_keys u) as [|k ks]; [contradiction|]. destruct (un_changes u) as [|[p v] cs]; [contradiction|]. cbn [flat_map]. unfold enc_key at 1, enc_field at 1. cbn [fst snd]. rewrite !len_app.
  pose proof (comp_len (zlen k)). pose proof (comp_len (len ((p, v) :: cs))). pose proof (comp_len p).
  assert (1 <= len (match v with None => enc_compressed (2 ^ 32 - 1) | Some b => enc_compressed (zlen b) ++ b end)).
  { destruct v as [b|]; [rewrite len_app; pose proof (comp_len (zlen b)); pose proof (len_nonneg b); lia|pose proof (comp_len (2 ^ 32 - 1)); lia]. }
  pose proof (len_nonneg k). pose proof (len_nonneg (flat_map enc_key ks)). pose proof (len_nonneg (flat_map enc_field cs)). pose proof (len_nonneg (un_more u)). lia.
Qed.
