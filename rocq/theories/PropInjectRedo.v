(** C134: values with SQL in the statements of the redo command. *)
From Coq Require Import ZifyBool.
From Verif Require Import GoBase Utils Ibdata Redo SpecInno SpecText SpecSql SpecRecord SpecRow SpecTypes SpecRedo SpecUndo SpecCmd SpecChars SpecInject SpecInjectRedo PBase PWire PCal PValue PText PSql PRec PRedo PStep PUndo PLog PToolRedo PropValue PropSql PropRedo PropNull POut PropUniqueRedo PropInject PTypes.
Local Open Scope list_scope.
Local Open Scope Z_scope.

Definition text_column (c : Column) : Prop := c_type c = innodb_varchar \/ c_type c = innodb_char \/ c_type c = innodb_varmysql \/ (c_type c = innodb_blob /\ c_binary c = false).
(** A DECIMAL, which is printed in the bytes it is stored in, after a remark *)
Definition decimal_column (c : Column) : Prop := c_type c = innodb_fixbinary /\ c_mysql c = field_newdecimal.
Lemma text_quiet c : text_column c -> remark c = [].
Proof. unfold text_column, remark. intros [H|[H|[H|[H _]]]]; rewrite H; reflexivity. Qed.
(** The printed statement, whatever the text or number is. *)
Lemma raw_update rt tm want_db want_tb spare fs es1 es2 tail l1 l2 u t key c b :
  update_in_log rt tm want_db want_tb fs es1 es2 tail l1 l2 u t key c b -> text_column c \/ decimal_column c ->
  ParseRedoLogs rt tm want_db want_tb (map (fun f => Some (log_events f)) fs) spare = (l1 ++ remark c ++ undo_statement (t_db t) (t_name t) [(c_name c, Some b)] key :: l2, Ok None).
Proof.
  intros [single [space [page [names [p [Hf [E [Hl [Ht [HF [H1 [H2 [Hs [Hp [Hu [H5 [Hm [Hy [Hr [Hk [HK [Ke [HC [Hn [Hcl [Nd [Nt [Nc KF]]]]]]]]]]]]]]]]]]]]]]]]]]]] HT.
  set (here := ERecord single space page (BUndo (enc_undo u))) in *. set (rest := zlen (flat_map enc_entry es2) + zlen tail) in *.
  apply (C68_log_partial rt tm want_db want_tb spare fs (es1 ++ here :: es2) tail); try assumption. apply log_lines_app.
  - replace (remark c ++ undo_statement (t_db t) (t_name t) [(c_name c, Some b)] key :: l2) with (([] ++ (remark c ++ []) ++ [undo_statement (t_db t) (t_name t) [(c_name c, Some b)] key]) ++ l2) by (rewrite app_nil_r; cbn [app]; now rewrite <- app_assoc).
    apply ll_undo; try assumption. apply (ul_update rt tm want_db want_tb _ u t names key _ [] (remark c ++ [])); try assumption.
    rewrite HC. apply old_value; [assumption|assumption| |constructor]. intros d _ _. exists (VStr b), (c_binary c). split; [|constructor]. destruct HT as [HT|[HT1 HT2]].
    + rewrite (text_quiet c HT). apply C19_text_exact. unfold text_column in HT. tauto.
    + unfold remark. rewrite HT1, HT2. apply decimal_parsed.
  - replace (zlen (flat_map enc_entry (here :: es2)) + len tail) with (zlen (enc_entry here) + rest); [exact H1|]. subst rest. cbn [flat_map]. unfold zlen, len. rewrite app_length. lia.
Qed.
Lemma text_update rt tm want_db want_tb spare fs es1 es2 tail l1 l2 u t key c b :
  update_in_log rt tm want_db want_tb fs es1 es2 tail l1 l2 u t key c b -> text_column c ->
  ParseRedoLogs rt tm want_db want_tb (map (fun f => Some (log_events f)) fs) spare = (l1 ++ undo_statement (t_db t) (t_name t) [(c_name c, Some b)] key :: l2, Ok None).
Proof. intros HU HT. rewrite (raw_update rt tm want_db want_tb spare fs es1 es2 tail l1 l2 u t key c b HU (or_introl HT)), (text_quiet c HT). reflexivity. Qed.
Lemma conditions_joined key : SpecRedo.joined (txt " and ") (map (fun k : list Z * list Z => equals (fst k) (Some (snd k))) key) = conditions key.
Proof.
  induction key as [|[n v] key IH]; [reflexivity|]. destruct key as [|k key]; [reflexivity|].
  change (SpecRedo.joined (txt " and ") (map (fun k : list Z * list Z => equals (fst k) (Some (snd k))) ((n, v) :: k :: key))) with (equals n (Some v) ++ txt " and " ++ SpecRedo.joined (txt " and ") (map (fun k : list Z * list Z => equals (fst k) (Some (snd k))) (k :: key))).
  rewrite IH. change (conditions ((n, v) :: k :: key)) with (txt "`" ++ n ++ txt "`='" ++ v ++ txt "' and " ++ conditions (k :: key)). unfold equals. change (txt "' and ") with (txt "'" ++ txt " and "). rewrite <- !app_assoc. reflexivity.
Qed.
Lemma breakout_read t key c a x : ~ In 96 (t_db t) -> ~ In 96 (t_name t) -> ~ In 96 (c_name c) -> literal a = true ->
  read_update_all (undo_statement (t_db t) (t_name t) [(c_name c, Some (a ++ txt "';" ++ x))] key) = Some (t_db t, t_name t, [(c_name c, SStr a, [])], x ++ txt "' where " ++ conditions key ++ txt ";").
Proof.
  intros Nd Nt Nc La.
  rewrite undo_is_text. unfold update_text, read_update_all. rewrite strip_app. rewrite read_table_plain; [|assumption|assumption|cbn; lia]. rewrite strip_app.
  cbn [map fst snd shown_value join_and].
  assert (EQ : item_text (c_name c, SStr (a ++ txt "';" ++ x)) ++ txt " where " ++ join_and (map item_text (map (fun k : bytes * bytes => (fst k, SStr (snd k))) key)) ++ [59]
             = item_text (c_name c, SStr a) ++ txt ";" ++ x ++ txt "' where " ++ conditions key ++ txt ";").
  { rewrite <- conditions_joined. assert (J : join_and (map item_text (map (fun k : bytes * bytes => (fst k, SStr (snd k))) key)) = SpecRedo.joined (txt " and ") (map (fun k : list Z * list Z => equals (fst k) (Some (snd k))) key)).
    { rewrite joined_and, map_map. f_equal. }
    rewrite J. unfold item_text. cbn [fst snd]. change (txt "';") with [39; 59]. change (txt "' where ") with (39 :: txt " where "). change (txt ";") with [59]. repeat first [progress cbn [app] | rewrite <- app_assoc]. reflexivity. }
  match goal with |- context [read_set _ ?r] => replace r with (item_text (c_name c, SStr a) ++ txt ";" ++ x ++ txt "' where " ++ conditions key ++ txt ";") by (symmetry; exact EQ) end.
  set (k := x ++ txt "' where " ++ conditions key ++ txt ";").
  assert (HL : (1 <= List.length (item_text (c_name c, SStr a) ++ txt ";" ++ k))%nat) by (cbn; lia). destruct (List.length (item_text (c_name c, SStr a) ++ txt ";" ++ k)) as [|n] eqn:EN; [lia|].
  cbn [read_set]. rewrite EN. cbn [read_conj]. rewrite (read_eq_item (c_name c, SStr a) (txt ";" ++ k)) by (try (split; [exact Nc|exact La]); vm_compute; discriminate).
  reflexivity.
Qed.
(** Where an old text has a quotation mark and a semicolon, the statement ends
    there: what is left changes every row of the table, and the rest of the
    text is run as SQL. *)
Theorem C134_breakout_refuted : forall rt tm want_db want_tb spare fs es1 es2 tail l1 l2 u t key c a x,
  update_in_log rt tm want_db want_tb fs es1 es2 tail l1 l2 u t key c (a ++ txt "';" ++ x) -> text_column c -> literal a = true ->
  exists line, ParseRedoLogs rt tm want_db want_tb (map (fun f => Some (log_events f)) fs) spare = (l1 ++ line :: l2, Ok None)
    /\ read_update_all line = Some (t_db t, t_name t, [(c_name c, SStr a, [])], x ++ txt "' where " ++ conditions key ++ txt ";").
Proof.
  intros rt tm want_db want_tb spare fs es1 es2 tail l1 l2 u t key c a x HU HT La. eexists. split; [exact (text_update rt tm want_db want_tb spare fs es1 es2 tail l1 l2 u t key c _ HU HT)|].
  destruct HU as [single [space [page [names [p [_ [_ [_ [_ [_ [_ [_ [_ [_ [_ [_ [_ [_ [_ [_ [_ [_ [_ [_ [_ [Nd [Nt [Nc _]]]]]]]]]]]]]]]]]]]]]]]]]]]].
  now apply breakout_read.
Qed.
Print Assumptions C134_breakout_refuted.
(** So does a number: a DECIMAL whose bytes happen to be these. *)
Theorem C134_decimal_refuted : forall rt tm want_db want_tb spare fs es1 es2 tail l1 l2 u t key c a x,
  update_in_log rt tm want_db want_tb fs es1 es2 tail l1 l2 u t key c (a ++ txt "';" ++ x) -> decimal_column c -> literal a = true ->
  exists line, ParseRedoLogs rt tm want_db want_tb (map (fun f => Some (log_events f)) fs) spare = (l1 ++ decimal_message :: line :: l2, Ok None)
    /\ read_update_all line = Some (t_db t, t_name t, [(c_name c, SStr a, [])], x ++ txt "' where " ++ conditions key ++ txt ";").
Proof.
  intros rt tm want_db want_tb spare fs es1 es2 tail l1 l2 u t key c a x HU HT La. eexists.
  split; [rewrite (raw_update rt tm want_db want_tb spare fs es1 es2 tail l1 l2 u t key c _ HU (or_intror HT)); unfold remark; destruct HT as [-> ->]; reflexivity|].
  destruct HU as [single [space [page [names [p [_ [_ [_ [_ [_ [_ [_ [_ [_ [_ [_ [_ [_ [_ [_ [_ [_ [_ [_ [_ [Nd [Nt [Nc _]]]]]]]]]]]]]]]]]]]]]]]]]]]].
  now apply breakout_read.
Qed.
Print Assumptions C134_decimal_refuted.

(** * Tables without text *)
Definition pval {A} (Q : A -> Prop) (p : P A) : Prop := forall s, match p s with (_, _, Ok a) => Q a | _ => True end.
Lemma pv_bind {A B} (Q : B -> Prop) (m : P A) (k : A -> P B) : (forall a, pval Q (k a)) -> pval Q (pbind m k).
Proof. intros H s. unfold pbind. destruct (m s) as [[o s'] [a| |]]; try exact I. specialize (H a s'). destruct (k a s') as [[o' s''] r]. exact H. Qed.
Lemma pv_bind' {A B} (R : A -> Prop) (Q : B -> Prop) (m : P A) (k : A -> P B) : pval R m -> (forall a, R a -> pval Q (k a)) -> pval Q (pbind m k).
Proof. intros H0 H s. unfold pbind. specialize (H0 s). destruct (m s) as [[o s'] [a| |]]; try exact I. specialize (H a H0 s'). destruct (k a s') as [[o' s''] r]. exact H. Qed.
Lemma pv_ret {A} (Q : A -> Prop) a : Q a -> pval Q (pret a).
Proof. intros H s. exact H. Qed.
Lemma po_bind' {A B} (D : bytes -> Prop) (R : A -> Prop) (m : P A) (k : A -> P B) : pout D m -> pval R m -> (forall a, R a -> pout D (k a)) -> pout D (pbind m k).
Proof.
  intros H1 H0 H2 s. unfold pbind. specialize (H1 s). specialize (H0 s). destruct (m s) as [[o s'] [a| |]]; cbn in *; try exact H1.
  specialize (H2 a H0 s'). destruct (k a s') as [[o' s''] r]. cbn in *. now apply Forall_app.
Qed.
Definition plain (rt : runtime) (v : gval) : Prop := literal (fmt_v rt v) = true.
Definition calm (b : Z) : Prop := b <> 39 /\ b <> 92.
Lemma calm_literal s : Forall calm s -> literal s = true.
Proof. intro H. apply literal_plain. intros x Hx. rewrite Forall_forall in H. exact (H x Hx). Qed.
Lemma calm_digits w n t : dec_text w n t -> Forall calm t.
Proof. intros [H _]. eapply Forall_impl; [|exact H]. intros x Hx. unfold digit in Hx. unfold calm. lia. Qed.
Lemma calm_02d n : 0 <= n -> Forall calm (fmt_02d n).
Proof. intro H. exact (calm_digits _ _ _ (fmt_02d_spec n H)). Qed.
Lemma calm_one c : c <> 39 -> c <> 92 -> Forall calm [c].
Proof. intros. constructor; [split; assumption|constructor]. Qed.
Lemma calm_hex d : all_bytes d -> Forall calm (ParseBlob d).
Proof.
  unfold ParseBlob. induction 1 as [|x d Hx _ IH]; [constructor|]. cbn [flat_map app]. unfold is_byte in Hx.
  assert (H1 : 0 <= Z.shiftr x 4 < 16) by (rewrite Z.shiftr_div_pow2 by lia; change (2 ^ 4) with 16; lia).
  assert (H2 : 0 <= Z.land x 15 < 16) by (change 15 with (Z.ones 4); rewrite Z.land_ones by lia; change (2 ^ 4) with 16; lia).
  apply Forall_cons; [|apply Forall_cons; [|exact IH]]; unfold hex_digit, calm; [destruct (Z.shiftr x 4 <? 10) eqn:Eq|destruct (Z.land x 15 <? 10) eqn:Eq]; lia.
Qed.
Lemma calm_datetime y mo d h mi s : 0 <= y -> 0 <= mo -> 0 <= d -> 0 <= h -> 0 <= mi -> 0 <= s -> Forall calm (fmt_datetime y mo d h mi s).
Proof.
  intros. unfold fmt_datetime. change (bs "-") with [45]. change (bs " ") with [32]. change (bs ":") with [58].
  repeat (apply Forall_app; split); try (now apply calm_02d); apply calm_one; lia.
Qed.
Lemma ParseDateTime_calm d : all_bytes d -> match ParseDateTime d with Ok t => Forall calm t | _ => True end.
Proof.
  intro Hb. unfold ParseDateTime. destruct (GetTimeFormat d) as [f| |]; cbn [bind]; try exact I. rewrite mrf8_spec by exact Hb. destruct (8 <=? len d) eqn:El; [|destruct (_ || _); [exact I|]; destruct (_ =? 2); [exact I|constructor]]. cbn [bind].
  pose proof (be_val_bound (firstn 8 d) (all_bytes_firstn 8 d Hb)) as B. set (v := be_val (firstn 8 d)) in *. clearbody v. destruct (_ || _).
  - assert (0 <= Z.ldiff v (2 ^ 63)) by (apply Z.ldiff_nonneg; lia). set (w := Z.ldiff v (2 ^ 63)) in *. clearbody w.
    assert (forall x, 0 <= x -> 0 <= x / 100) by (intros; lia). apply calm_datetime; try (apply Z.mod_pos_bound; lia).
  - destruct (_ =? 2); [|constructor]. assert (L : forall m k, 0 <= m -> 0 <= Z.shiftr (Z.land v m) k) by (intros m k Hm; apply Z.shiftr_nonneg, Z.land_nonneg; lia).
    set (yd := Z.shiftr (Z.land v 9223301668110598144) 46) in *. assert (0 <= yd) by (apply L; lia). apply calm_datetime; try (apply L; lia); lia.
Qed.
Lemma ParseDate_calm d : all_bytes d -> match ParseDate d with Ok t => Forall calm t | _ => True end.
Proof.
  intro Hb. unfold ParseDate. rewrite mrf3_spec by exact Hb. destruct (3 <=? len d); cbn [bind]; [|exact I].
  pose proof (be_val_bound (firstn 3 d) (all_bytes_firstn 3 d Hb)) as B. assert (0 <= Z.ldiff (be_val (firstn 3 d)) (2 ^ 23)) by (apply Z.ldiff_nonneg; lia). set (w := Z.ldiff _ _) in *. clearbody w.
  change (bs "-") with [45]. repeat (apply Forall_app; split); try (apply calm_one; lia); apply calm_02d; lia.
Qed.
Lemma ParseTime_calm d : match ParseTime d with Ok t => Forall calm t | _ => True end.
Proof.
  unfold ParseTime. destruct (MatchReadFrom3 d) as [v| |]; cbn [bind]; try exact I. cbv zeta. set (w := if i64 v - 8388608 <? 0 then - (i64 v - 8388608) else i64 v - 8388608).
  assert (0 <= w) by (unfold w; destruct (_ <? 0) eqn:E; lia). clearbody w.
  assert (F : Forall calm (fmt_02d (Z.shiftr (Z.land w 4190208) 12) ++ bs ":" ++ fmt_02d (Z.shiftr (Z.land w 4032) 6) ++ bs ":" ++ fmt_02d (Z.land w 63))).
  { change (bs ":") with [58]. repeat (apply Forall_app; split); try (apply calm_one; lia); apply calm_02d; try (apply Z.shiftr_nonneg); apply Z.land_nonneg; lia. }
  destruct (_ <? 0); [|exact F]. change (bs "-") with [45]. apply Forall_app. split; [apply calm_one; lia|exact F].
Qed.
Lemma ParseTimeStamp_calm rt d : plain_runtime rt -> all_bytes d -> match ParseTimeStamp rt d with Ok t => Forall calm t | _ => True end.
Proof.
  intros [_ [_ HZ]] Hb. unfold ParseTimeStamp. rewrite mrf4_spec by exact Hb. destruct (4 <=? len d) eqn:El; cbn [bind]; [|exact I].
  pose proof (be_val_bound (firstn 4 d) (all_bytes_firstn 4 d Hb)) as B. assert (L4 : len (firstn 4 d) = 4) by (unfold len in *; rewrite firstn_length; lia). rewrite L4 in B. change (256 ^ 4) with 4294967296 in B.
  set (v := be_val (firstn 4 d)) in *. clearbody v. assert (E : i64 v = v) by (apply i64_id; lia). rewrite E. specialize (HZ v). set (z := v + rt_zone rt v) in *. assert (Hz : -86400 <= z) by (unfold z; lia). clearbody z.
  unfold time_format. destruct (civil_spec (z / 86400)) as [y [m [dd [Ec [Hy [Hv _]]]]]]; [lia|]. rewrite Ec. unfold valid_date in Hv. cbv zeta.
  change (bs "-") with [45]. change (bs " ") with [32]. change (bs ":") with [58].
  apply Forall_app; split; [exact (calm_digits _ _ _ (fmt_year4_spec y Hy))|]. repeat (apply Forall_app; split); try (apply calm_one; lia); apply calm_02d; try lia. destruct (_ =? 0); lia.
Qed.
Lemma plain_data rt c d len fix_ : plain_runtime rt -> plain_column c -> all_bytes d -> match snd (ParseData rt (c_type c) (c_mysql c) d len fix_ (c_unsigned c) (c_binary c)) with Ok (v, _) => plain rt v | _ => True end.
Proof.
  intros HR HC Hb. assert (U : forall n, plain rt (VUint n)) by (intro n; exact (int_literal _ _ (fmt_d_spec _))). assert (N : forall n, plain rt (VInt n)) by (intro n; exact (int_literal _ _ (fmt_d_spec _))).
  assert (S : forall s, Forall calm s -> plain rt (VStr s)) by (intros s Hs; now apply calm_literal).
  assert (B : match snd ([] : list bytes, (x <- slice_to d len ;; Ok (VStr (ParseBlob x), true))) with Ok (v, _) => plain rt v | _ => True end).
  { cbn [snd]. unfold slice_to. destruct (_ && _); cbn [bind]; [|exact I]. now apply S, calm_hex, all_bytes_firstn. }
  assert (UI : match snd ([] : list bytes, (v <- (x <- slice_to d len ;; GetUintValue fix_ x) ;; Ok (VUint v, c_binary c))) with Ok (v, _) => plain rt v | _ => True end).
  { cbn [snd]. destruct (slice_to d len) as [x| |]; cbn [bind]; try exact I. destruct (GetUintValue fix_ x); cbn [bind]; try exact I. apply U. }
  assert (NN : plain rt VNil) by reflexivity.
  unfold ParseData. destruct HC as [[E|[E|[E|[E|[E|[]]]]]]|[[E M]|[[E M]|[E M]]]]; rewrite <- ?E.
  - exact NN.
  - change (innodb_int =? DATA_VARCHAR) with false. change (innodb_int =? DATA_CHAR) with false. change (innodb_int =? DATA_FIXBINARY) with false. change (innodb_int =? DATA_BINARY) with false. change (innodb_int =? DATA_INT) with true. cbv iota.
    destruct (c_mysql c =? MYSQL_TYPE_DATE); [pose proof (ParseDate_calm d Hb) as X; cbn [snd]; destruct (ParseDate d); cbn [bind]; try exact I; now apply S|]. destruct (_ =? MYSQL_TYPE_YEAR).
    + cbn [snd]. destruct (MatchReadFrom1 d); cbn [bind]; try exact I. apply U.
    + destruct (c_unsigned c); [exact UI|]. cbn [snd]. destruct (slice_to d len) as [x| |]; cbn [bind]; try exact I. destruct (GetIntValue fix_ x) as [v| |] eqn:Ev; cbn [bind]; try exact I. revert Ev. unfold GetIntValue.
      repeat match goal with |- context [if ?b then _ else _] => destruct b | |- context [bind ?r _] => destruct r; cbn [bind] end; intro Ev; try discriminate Ev; injection Ev as <-; (apply N || apply U).
  - cbn. destruct (ParseFloat d); cbn [bind]; try exact I. apply (proj1 HR).
  - cbn. destruct (ParseDouble d); cbn [bind]; try exact I. apply (proj1 (proj2 HR)).
  - exact NN.
  - rewrite E. change (innodb_fixbinary =? DATA_VARCHAR) with false. change (innodb_fixbinary =? DATA_CHAR) with false. change (innodb_fixbinary =? DATA_FIXBINARY) with true. cbv iota.
    destruct M as [M|[M|[M|[M|[M|[]]]]]]; rewrite <- M.
    + pose proof (ParseTime_calm d) as X. cbn. destruct (ParseTime d); cbn [bind]; try exact I. now apply S.
    + pose proof (ParseTimeStamp_calm rt d HR Hb) as X. cbn. destruct (ParseTimeStamp rt d); cbn [bind]; try exact I. now apply S.
    + pose proof (ParseDateTime_calm d Hb) as X. change (field_datetime =? MYSQL_TYPE_TIME) with false. change (field_datetime =? MYSQL_TYPE_TIMESTAMP) with false. change (field_datetime =? MYSQL_TYPE_DATETIME) with true. cbv iota. cbn [snd]. destruct (ParseDateTime d); cbn [bind]; try exact I. now apply S.
    + exact UI.
    + exact B.
  - rewrite E, M. exact B.
  - rewrite E, M. exact B.
Qed.
Lemma plain_cap rt c d extra len fix_ : plain_runtime rt -> plain_column c -> all_bytes d -> all_bytes extra -> pval (fun x => plain rt (fst x)) (pw (ParseDataCap rt (c_type c) (c_mysql c) d extra len fix_ (c_unsigned c) (c_binary c))).
Proof.
  intros HR H Hd He s. unfold pw, ParseDataCap. match goal with |- context [ParseData rt _ _ ?x _ _ _ _] => assert (Hx : all_bytes x) by (destruct (_ || _); [now apply all_bytes_app|exact Hd]);
    pose proof (plain_data rt c x len fix_ HR H Hx) as X; destruct (ParseData rt (c_type c) (c_mysql c) x len fix_ (c_unsigned c) (c_binary c)) as [o r] end.
  cbn [snd] in X. destruct r as [[v b]| |]; try exact I. exact X.
Qed.
Lemma zero_cap rt d extra len fix_ : pval (fun x => plain rt (fst x)) (pw (ParseDataCap rt (c_type zeroColumn) (c_mysql zeroColumn) d extra len fix_ (c_unsigned zeroColumn) (c_binary zeroColumn))).
Proof. intro s. reflexivity. Qed.
Lemma pv_lift {A} (R : A -> Prop) (r : res A) : (forall a, r = Ok a -> R a) -> pval R (plift r).
Proof. intros H s. unfold plift. destruct r; try exact I. cbn. now apply H. Qed.
Lemma slice_bytes (d : bytes) a b x : all_bytes d -> slice d a b = Ok x -> all_bytes x.
Proof. intros H E. unfold slice in E. destruct (_ && _); [|discriminate]. injection E as <-. now apply all_bytes_firstn, all_bytes_skipn. Qed.
Lemma cap_bytes data spare a b x : all_bytes data -> slice_cap data spare a b = Ok x -> all_bytes x.
Proof. intros H E. eapply slice_bytes; [|exact E]. apply all_bytes_app. split; [exact H|apply zeros_bytes]. Qed.
Section Plain.
Context (rt : runtime) (data : bytes) (spare : nat) (t : Table).
Hypothesis HR : plain_runtime rt.
Hypothesis HB : all_bytes data.
Hypothesis HT : plain_table t.
Lemma keys_plain : forall fs, Forall (fun f => ~ In 96 (fd_name f)) fs -> pval (fun r => Forall (fun kv => ~ In 96 (fst kv) /\ plain rt (snd kv)) (fst r)) (undoKeys rt data spare t fs).
Proof.
  destruct HT as [_ [_ [Hc _]]]. induction fs as [|f fs IH]; intro Hf; cbn [undoKeys]; [apply pv_ret; constructor|]. inversion Hf as [|? ? Hn Hf']; subst.
  apply pv_bind. intros [[n k] [e|]]; [apply pv_ret; constructor|]. apply pv_bind; intro. apply pv_bind; intro.
  eapply pv_bind'; [apply (pv_lift (fun x => all_bytes x)); intros x Ex; exact (cap_bytes _ _ _ _ _ HB Ex)|]. intros x Hx.
  eapply pv_bind' with (R := fun x => plain rt (fst x)).
  - unfold getColumnsByName. destruct (find _ (t_columns t)) as [c|] eqn:E; [|apply zero_cap]. apply find_some in E as [E _]. rewrite Forall_forall in Hc. apply plain_cap; [exact HR|exact (proj1 (Hc c E))|exact Hx|].
    apply all_bytes_skipn, all_bytes_app. split; [exact HB|apply zeros_bytes].
  - intros [v b] Hv. apply pv_bind; intro. eapply pv_bind'; [exact (IH Hf')|]. intros [kvs err] Hk. apply pv_ret. constructor; [split; [exact Hn|exact Hv]|exact Hk].
Qed.
Lemma column_plain : pval (fun r => match r with inl c => ~ In 96 (c_name c) /\ plain rt (c_value c) | inr _ => True end) (undoColumn rt data spare t).
Proof.
  destruct HT as [_ [_ [Hc _]]]. unfold undoColumn. apply pv_bind. intros [[n k] [e|]]; [apply pv_ret; exact I|]. apply pv_bind; intro. destruct (getColumnByPos t n) as [c|] eqn:E; [|apply pv_ret; exact I].
  assert (Hi : In c (t_columns t)) by (unfold getColumnByPos in E; destruct (n <? _); [exact (nth_error_In _ _ E)|discriminate]). rewrite Forall_forall in Hc. destruct (Hc c Hi) as [H1 H2].
  apply pv_bind. intros [[fl k2] e2]. apply pv_bind; intro. apply pv_bind; intro. destruct (_ >? _); [apply pv_ret; split; [exact H2|reflexivity]|].
  eapply pv_bind'; [apply (pv_lift (fun x => all_bytes x)); intros x Ex; unfold slice_from in Ex; destruct (_ && _); [|discriminate]; injection Ex as <-; now apply all_bytes_skipn|]. intros x Hx.
  eapply pv_bind'; [apply plain_cap; [exact HR|exact H1|exact Hx|apply zeros_bytes]|]. intros [v b] Hv. apply pv_bind; intro. apply pv_ret. split; [exact H2|exact Hv].
Qed.
Lemma columns_plain : forall fuel i n, pval (fun r => Forall (fun c => ~ In 96 (c_name c) /\ plain rt (c_value c)) (fst r)) (undoColumns fuel rt data spare t i n).
Proof.
  induction fuel as [|f IH]; intros i n; cbn [undoColumns]; [intro s; exact I|]. destruct (i <? n); [|apply pv_ret; constructor].
  eapply pv_bind'; [apply column_plain|]. intros [c|e] Hx; [|apply pv_ret; constructor]. eapply pv_bind'; [apply IH|]. intros [cs err] Hy. apply pv_ret. now constructor.
Qed.
End Plain.
Lemma key_fields t : plain_table t -> Forall (fun f => ~ In 96 (fd_name f)) (getPrimaryKey t).
Proof.
  intros [_ [_ [_ H]]]. unfold getPrimaryKey. assert (G : forall acc, Forall (fun f => ~ In 96 (fd_name f)) acc -> Forall (fun f => ~ In 96 (fd_name f)) (fold_left (fun fields kix =>
    let name := trim_space (ix_name (snd kix)) in if beq name (bs "PRIMARY") || beq name (bs "GEN_CLUST_INDEX") then if beq name (bs "GEN_CLUST_INDEX") then [mkField 0 (bs "DB_ROW_ID")] else ix_fields (snd kix) else fields) (t_indexes t) acc)).
  { induction H as [|kix l Hx _ IH]; intros acc Ha; [exact Ha|]. cbn [fold_left]. apply IH. cbv zeta. destruct (_ || _); [|exact Ha]. destruct (beq _ _); [|exact Hx]. constructor; [vm_compute; lia|constructor]. }
  apply G. constructor.
Qed.
(** The shape of the statements *)
Lemma out_set rt c k o : ~ In 96 (c_name c) -> plain rt (c_value c) -> no_quote k -> outside k o -> exists v, In v [txt "``=''"; txt "``=NULL"] /\ outside (set_value_text rt c ++ k) (v ++ o).
Proof.
  intros Hn Hv Hk H. assert (G : outside ((bs "`" ++ c_name c ++ bs "`='" ++ fmt_v rt (c_value c) ++ bs "'") ++ k) (txt "``=''" ++ o)).
  { change (bs "`") with [96]. change (bs "`='") with [96; 61; 39]. change (bs "'") with [39]. rewrite <- !app_assoc. cbn [app]. change (txt "``=''" ++ o) with (96 :: 96 :: 61 :: 39 :: 39 :: o).
    apply out_ident; [exact Hn|cbn; lia|]. apply (out_clean [61]); [reflexivity|]. eapply out_string; [|exact H]. rewrite <- ?app_assoc. apply (lex_str_literal k Hk _ _ (le_n _)). exact Hv. }
  unfold set_value_text. destruct (c_value c); [|exists (txt "``=''"); split; [now left|exact G]..].
  exists (txt "``=NULL"). split; [right; now left|]. change (bs "`") with [96]. change (bs "`=NULL") with (96 :: txt "=NULL"). rewrite <- !app_assoc. cbn [app]. change (txt "``=NULL" ++ o) with (96 :: 96 :: txt "=NULL" ++ o).
  apply out_ident; [exact Hn|vm_compute; lia|]. apply out_clean; [reflexivity|exact H].
Qed.
Lemma out_where rt kv k o : ~ In 96 (fst kv) -> plain rt (snd kv) -> no_quote k -> outside k o -> outside (where_text rt kv ++ k) (txt "``=''" ++ o).
Proof.
  intros Hn Hv Hk H. unfold where_text. change (bs "`") with [96]. change (bs "`='") with [96; 61; 39]. change (bs "'") with [39]. rewrite <- !app_assoc. cbn [app]. change (txt "``=''" ++ o) with (96 :: 96 :: 61 :: 39 :: 39 :: o).
  apply out_ident; [exact Hn|cbn; lia|]. apply (out_clean [61]); [reflexivity|]. eapply out_string; [|exact H]. rewrite <- ?app_assoc. apply (lex_str_literal k Hk _ _ (le_n _)). exact Hv.
Qed.
Lemma out_join {A} (f : A -> bytes) (S : bytes -> Prop) l k o : Forall (fun a => forall k o, no_quote k -> outside k o -> exists v, S v /\ outside (f a ++ k) (v ++ o)) l -> no_quote k -> outside k o ->
  exists vs, List.length vs = List.length l /\ Forall S vs /\ outside (join_and (map f l) ++ k) (SpecRedo.joined (txt " and ") vs ++ o).
Proof.
  intros H Hk Ho. induction H as [|a l Ha _ IH]; [exists []; split; [reflexivity|split; [constructor|exact Ho]]|]. destruct IH as [vs [L [F O]]]. destruct l as [|b l].
  - destruct (Ha k o Hk Ho) as [v [Sv Ov]]. exists [v]. split; [reflexivity|]. split; [now constructor|]. exact Ov.
  - destruct vs as [|w vs]; [discriminate L|]. destruct (Ha (bs " and " ++ join_and (map f (b :: l)) ++ k) (txt " and " ++ SpecRedo.joined (txt " and ") (w :: vs) ++ o)) as [v [Sv Ov]]; [vm_compute; lia|apply out_clean; [reflexivity|exact O]|].
    exists (v :: w :: vs). split; [cbn [List.length] in *; lia|]. split; [now constructor|].
    change (join_and (map f (a :: b :: l))) with (f a ++ bs " and " ++ join_and (map f (b :: l))). change (SpecRedo.joined (txt " and ") (v :: w :: vs)) with (v ++ txt " and " ++ SpecRedo.joined (txt " and ") (w :: vs)).
    rewrite <- !app_assoc. exact Ov.
Qed.
Lemma update_only rt t keys cols : plain_table t -> Forall (fun kv => ~ In 96 (fst kv) /\ plain rt (snd kv)) keys -> Forall (fun c => ~ In 96 (c_name c) /\ plain rt (c_value c)) cols -> only_update (update_statement rt t keys cols).
Proof.
  intros [Hd [Ht _]] HK HC.
  destruct (out_join (where_text rt) (fun v => v = txt "``=''") keys (bs ";") (txt ";")) as [ks [_ [Fk Ok_]]].
  { eapply Forall_impl; [|exact HK]. intros kv [H1 H2] k o Hk Ho. exists (txt "``=''"). split; [reflexivity|]. now apply out_where. }
  { vm_compute. lia. } { apply (out_clean (txt ";") [] []); [reflexivity|constructor]. }
  destruct (out_join (set_value_text rt) (fun v => In v [txt "``=''"; txt "``=NULL"]) cols (bs " where " ++ join_and (map (where_text rt) keys) ++ bs ";") (txt " where " ++ SpecRedo.joined (txt " and ") ks ++ txt ";")) as [ss [_ [Fs Os]]].
  { eapply Forall_impl; [|exact HC]. intros c [H1 H2] k o Hk Ho. now apply out_set. }
  { vm_compute. lia. } { apply out_clean; [reflexivity|exact Ok_]. }
  exists ss, ks. split; [exact Fs|]. split; [exact Fk|]. unfold update_statement. change (bs "update `") with (txt "update " ++ [96]). change (bs "`.`") with [96; 46; 96]. change (bs "` set ") with (96 :: txt " set ").
  change (txt "update ``.`` set ") with (txt "update " ++ 96 :: 96 :: 46 :: 96 :: 96 :: txt " set "). rewrite <- !app_assoc. apply out_clean; [reflexivity|]. cbn [app]. rewrite <- ?app_assoc.
  apply out_ident; [exact Hd|cbn; lia|]. apply (out_clean [46]); [reflexivity|]. apply out_ident; [exact Ht|vm_compute; lia|]. apply (out_clean (txt " set ")); [reflexivity|]. exact Os.
Qed.
Lemma plain_undo (D : bytes -> Prop) rt tm db tb : D decimal_line -> D err_short_compressed -> (forall line, only_update line -> D line) ->
  (forall k t, mget tm k = Some t -> redo_filter db tb t = true -> plain_table t) -> plain_runtime rt -> forall data spare, all_bytes data -> pout D (mlogUndoInsert rt tm db tb data spare).
Proof.
  intros Hd He Hu HT HR data spare HB. assert (KC : forall t fs, pout D (undoKeys rt data spare t fs)) by (intros t fs; now apply po_keys).
  assert (CC : forall t f i n, pout D (undoColumns f rt data spare t i n)) by (intros t f i n; now apply po_cols).
  unfold mlogUndoInsert, mlogUndoInsert_body, getTableByTableID. apply po_bind; [apply po_readat|intro]. apply po_bind; [apply po_advance|intro]. apply po_bind; [apply po_getpos|intro].
  apply po_recover; [|apply po_bind; [apply po_setpos|intro; apply po_ret]]. apply po_bind; [apply po_readat|intro]. apply po_bind; [apply po_advance|intro]. apply po_bind; [apply po_readat|intros [no [e|]]]; [apply po_bind; [apply po_setpos|intro; apply po_ret]|].
  apply po_bind; [apply po_advance|intro]. apply po_bind; [apply po_readat|intros [id [e|]]]; [apply po_bind; [apply po_setpos|intro; apply po_ret]|]. apply po_bind; [apply po_advance|intro].
  apply po_bind. { destruct (negb _); [|apply po_ret]. apply po_bind; [apply po_readat|intro]. apply po_bind; [apply po_advance|intro]. apply po_bind; [now apply po_ull|intro]. apply po_bind; [now apply po_ull|intro]. apply po_ret. }
  intro. destruct (mget tm id) as [t|] eqn:Et; [|apply po_bind; [apply po_setpos|intro; apply po_ret]]. specialize (HT id t Et).
  apply po_bind' with (R := fun r => redo_filter db tb t = true -> Forall (fun kv => ~ In 96 (fst kv) /\ plain rt (snd kv)) (fst r)); [apply KC| |].
  { destruct (redo_filter db tb t); [specialize (HT eq_refl)|intro s; destruct (undoKeys _ _ _ _ _ s) as [[o s'] [r| |]]; try exact I; discriminate].
    pose proof (keys_plain rt data spare t HR HB HT _ (key_fields t HT)) as X. intro s. specialize (X s). destruct (undoKeys _ _ _ _ _ s) as [[o s'] [r| |]]; try exact I. intros _. exact X. }
  intros [keys [e|]] Hk; [apply po_ret|]. cbn [fst] in Hk.
  apply po_bind; [|intros [e|]; [apply po_ret|]; apply po_bind; [apply po_getpos|intro]; apply po_bind; [destruct (negb _); [apply po_setpos|apply po_ret]|intro; apply po_ret]].
  destruct (_ =? _); [|apply po_ret]. apply po_bind; [now apply po_comp|intros [[v n] [e|]]]; [apply po_ret|]. apply po_bind; [apply po_advance|intro].
  destruct (redo_filter db tb t); [specialize (HT eq_refl); specialize (Hk eq_refl)|apply po_bind; [apply CC|intros [cols [e|]]; [apply po_ret|apply po_bind; [apply po_ret|intro; apply po_ret]]]].
  eapply po_bind'; [apply CC|apply columns_plain; [exact HR|exact HB|exact HT]|]. intros [cols [e|]] Hc; [apply po_ret|]. apply po_bind; [|intro; apply po_ret]. apply po_pw, wo_say. apply Hu. now apply update_only.
Qed.
Lemma plain_step (D : bytes -> Prop) rt tm db tb : D decimal_line -> D err_short_compressed -> (forall line, only_update line -> D line) ->
  (forall k t, mget tm k = Some t -> redo_filter db tb t = true -> plain_table t) -> plain_runtime rt -> forall data spare, all_bytes data -> pout D (redo_step rt tm db tb data spare).
Proof.
  intros Hd He Hu HT HR data spare HB. assert (S : forall t, pout D (redo_switch rt tm db tb data spare t)).
  { intro t. unfold redo_switch, mlogNBytes, mlogRecSecDeleteMark, mlogUndoInit, mlogUndoHdrReuse, mlogUndoHdrCreate, mlogWriteString, mlogFileOp, mlogRecInsert, mlogRecClustDeleteMark,
      mlogCompRecSecDeleteMark, mlogRecUpdateInPlace, mlogRecDelete, mlogListDelete, mlogListEndCopyCreated, mlogPageReorganize, mlogZipWriteNodePtr, mlogZipWriteHeader, mlogZipPageCompress, mlogZipPageCompressNoData.
    repeat match goal with |- pout D (if ?b then _ else _) => destruct b end; try (apply po_dropped; now apply plain_undo);
      repeat first [ apply po_ret | apply po_lift | apply po_getpos | apply po_setpos | apply po_advance | apply po_readat | now apply po_comp | now apply po_index | now apply po_insert | now apply po_ull | now apply po_update | now apply po_copy
        | apply po_dropped | apply po_andthen | apply po_bind; [|intro] | apply po_recover | match goal with |- pout _ (match ?x with _ => _ end) => destruct x end ]. }
  unfold redo_step. repeat first [ apply S | apply po_ret | apply po_lift | apply po_getpos | apply po_setpos | apply po_advance | apply po_readat | now apply po_comp | now apply po_ull
        | apply po_dropped | apply po_andthen | apply po_bind; [|intro] | apply po_recover | match goal with |- pout _ (match ?x with _ => _ end) => destruct x end ].
Qed.
Lemma read_bytes n f : (forall b, In (IoBytes b) f -> all_bytes b) -> forall b f', ReadNextBytes f n = (Some b, f') -> all_bytes b /\ (forall x, In x f' -> In x f).
Proof.
  intros H b f' E. destruct f as [|[x|] f]; cbn [ReadNextBytes] in E; try discriminate E. injection E as <- <-. split; [|intros y Hy; now right].
  apply all_bytes_firstn, all_bytes_app. split; [apply H; now left|apply zeros_bytes].
Qed.
Lemma blocks_bytes f : (forall b, In (IoBytes b) f -> all_bytes b) -> forall d, redoBlocks f = Ok d -> all_bytes d.
Proof.
  induction f as [|ev f IH]; intros H d E; cbn [redoBlocks] in E; [injection E as <-; constructor|]. destruct ev as [b|]; cbn [ReadNextBytes fst] in E; [|injection E as <-; constructor].
  destruct (readRedoBlockHeader _) as [n| |]; cbn [bind] in E; try discriminate E. destruct (n =? 0); [injection E as <-; constructor|]. cbv zeta in E.
  match type of E with bind ?r _ = _ => destruct r as [x| |] eqn:Ex; cbn [bind] in E; try discriminate E end. destruct (redoBlocks f) as [rest| |]; cbn [bind] in E; try discriminate E. injection E as <-.
  apply all_bytes_app. split; [|apply IH; [intros y Hy; apply H; now right|reflexivity]]. eapply slice_bytes; [|exact Ex].
  apply all_bytes_firstn, all_bytes_app. split; [apply H; now left|apply zeros_bytes].
Qed.
Lemma next_in n f r f' : ReadNextBytes f n = (r, f') -> forall x, In x f' -> In x f.
Proof. destruct f as [|[b|] f]; cbn [ReadNextBytes]; intros E x Hx; injection E as _ <-; [exact Hx|now right|now right]. Qed.
Lemma files_bytes files : byte_files files -> forall d, redoFiles files = Ok (inl d) -> all_bytes d.
Proof.
  induction files as [|[f|] files IH]; intros H d E; cbn [redoFiles] in E; [injection E as <-; constructor| |discriminate E].
  destruct (readRedoLogFileHeader f) as [[[e|] f1]| |] eqn:E1; cbn [bind] in E; try discriminate E. destruct (readRedoLogFileCheckpoint f1) as [[e|] f2] eqn:E2; [discriminate E|].
  destruct (redoBlocks f2) as [x| |] eqn:E3; cbn [bind] in E; try discriminate E. destruct (redoFiles files) as [[rest|e]| |] eqn:E4; cbn [bind] in E; try discriminate E. injection E as <-.
  assert (I1 : forall x, In x f1 -> In x f).
  { unfold readRedoLogFileHeader in E1. destruct (ReadNextBytes f _) as [[b|] g] eqn:Er; [|discriminate E1]. pose proof (next_in _ _ _ _ Er) as X. revert E1. repeat match goal with |- context [bind ?r _] => destruct r; cbn [bind]; try discriminate end. intro E1. injection E1 as <-. exact X. }
  assert (I2 : forall x, In x f2 -> In x f1).
  { unfold readRedoLogFileCheckpoint in E2. destruct (ReadNextBytes f1 _) as [[b|] g1] eqn:Er1; [|discriminate E2]. destruct (ReadNextBytes g1 _) as [r2 g2] eqn:Er2. destruct (ReadNextBytes g2 _) as [[b3|] g3] eqn:Er3; [|discriminate E2]. injection E2 as <-.
    intros y Hy. apply (next_in _ _ _ _ Er1), (next_in _ _ _ _ Er2), (next_in _ _ _ _ Er3), Hy. }
  apply all_bytes_app. split; [|apply IH; [|reflexivity]].
  - apply (blocks_bytes f2); [|exact E3]. intros b Hb. exact (H f b (or_introl eq_refl) (I1 _ (I2 _ Hb))).
  - intros evs b H1 H2. exact (H evs b (or_intror H1) H2).
Qed.
(** Whatever the log files hold: for tables without text nothing of them is
    printed outside quoted text. *)
Theorem C134_plain_partial : forall rt tm want_db want_tb files spare, plain_runtime rt -> byte_files files ->
  (forall k t, mget tm k = Some t -> requested want_db want_tb (t_db t) (t_name t) \/ want_tb = t_name t -> plain_table t) ->
  Forall (fun line => only_update line \/ line = decimal_message \/ line = compressed_message) (fst (ParseRedoLogs rt tm want_db want_tb files spare)).
Proof.
  intros rt tm db tb files spare HR HF HT. set (D := fun line => only_update line \/ line = decimal_message \/ line = compressed_message).
  assert (HT' : forall k t, mget tm k = Some t -> redo_filter db tb t = true -> plain_table t).
  { intros k t E Hf. apply (HT k t E). unfold redo_filter in Hf. unfold requested. assert (R : forall a b : bytes, beq a b = true <-> a = b) by (intros; apply beq_eq).
    destruct (beq (t_db t) db) eqn:E1; [apply R in E1; subst db; destruct (beq (t_name t) tb) eqn:E2; [apply R in E2; subst; tauto|apply R in Hf; subst; tauto]|].
    destruct (beq db [] && beq tb []) eqn:E2; [apply andb_true_iff in E2; rewrite !R in E2; destruct E2; subst; tauto|]. apply andb_true_iff in Hf as [_ Hf]. apply R in Hf. tauto. }
  assert (S : forall data, all_bytes data -> pout D (redo_step rt tm db tb data spare)) by (intros data HB; apply plain_step; [right; left; reflexivity|right; right; reflexivity|intros; now left|exact HT'|exact HR|exact HB]).
  change (wout D (ParseRedoLogs rt tm db tb files spare)). unfold ParseRedoLogs. apply wo_bind; [apply wo_lift|]. intros [data|e] Ed; [|apply wo_ret]. assert (HB : all_bytes data) by (apply (files_bytes files HF); cbn in Ed; congruence). unfold parseRedoBlockData, wout.
  assert (L : forall fuel, pout D (redo_loop fuel rt tm db tb data spare)).
  { induction fuel as [|f IH]; cbn [redo_loop]; [apply po_lift|]. apply po_bind; [apply po_getpos|intro]. destruct (_ || _); [apply po_ret|]. apply po_bind; [apply S, HB|intros [e|]]; [apply po_ret|apply IH]. }
  specialize (L (Datatypes.S (List.length data)) 0). destruct (redo_loop _ _ _ _ _ _ _ 0) as [[o s'] r]. exact L.
Qed.
Print Assumptions C134_plain_partial.
(** d.t(id, a): a text with a statement in it *)
Definition old_text : list Z := txt "x';drop table t;-- ".
(** 658187040 in a DECIMAL(11) *)
Definition old_number : list Z := store_decimal false [[0; 0]; [6; 5; 8; 1; 8; 7; 0; 4; 0]].
Lemma breakout_log rt c b : In b [old_text; old_number] -> 0 <= c_len c < 2 ^ 63 -> ~ In 96 (c_name c) ->
  update_in_log rt [(40, two_columns c)] [] [] [update_file b] [] [EEnd] [] [] [] (update_from b) (two_columns c) [(txt "id", txt "7")] c b.
Proof.
  intros Hb Hc Hn. exists true, 0, 5, [txt "id"], 1. cbv zeta.
  assert (F : file_ok (update_file b)).
  { destruct sample_file_ok as [H1 [H2 [H3 [H4 [H5 [H6 H7]]]]]]. unfold file_ok, update_file. cbn [lf_header lf_cp1 lf_unused lf_cp2 lf_blocks].
    do 6 (split; [assumption|]). destruct Hb as [<-|[<-|[]]]; (constructor; [apply block_check; reflexivity|]; constructor; [apply block_check; reflexivity|constructor]). }
  split; [constructor; [exact F|constructor]|]. split; [destruct Hb as [<-|[<-|[]]]; reflexivity|].
  split; [destruct Hb as [<-|[<-|[]]]; vm_compute; reflexivity|]. split; [reflexivity|]. split; [auto|]. split; [constructor|]. split; [apply ll_end, ll_nil|].
  split; [unfold word; lia|]. split; [unfold word; lia|]. split.
  { unfold undo_ok. cbn [update_from un_type un_cmpl un_no un_table un_info un_trx un_roll un_keys un_changes]. split; [cbn; unfold UNDO_INSERT, UNDO_UPDATE; tauto|].
    do 6 (split; [lia|]). split; [constructor; [reflexivity|constructor]|]. split; [reflexivity|].
    split; [|destruct Hb as [<-|[<-|[]]]; reflexivity]. constructor; [|constructor]. destruct Hb as [<-|[<-|[]]]; unfold field_ok; cbn; unfold zlen; cbn; lia. }
  split; [destruct Hb as [<-|[<-|[]]]; right; vm_compute; discriminate|]. split; [reflexivity|]. split; [reflexivity|]. split; [split; now left|]. split.
  { exists [], 1, (mkIndex 1 (txt "PRIMARY") 1 3 [mkField 0 (txt "id")]), []. repeat split; [constructor|]. left. split; reflexivity. }
  split. { eapply key_quiet; [apply cn_here; reflexivity|cbn; lia| |left; apply text_uint; exact (fmt_d_spec 7)|constructor]. reflexivity. }
  split; [discriminate|]. split; [reflexivity|]. split; [reflexivity|]. split; [exact Hc|]. split; [cbn; lia|]. split; [cbn; lia|]. split; [exact Hn|].
  constructor; [|constructor]. split; [cbn; lia|reflexivity].
Qed.
Example C134_case rt : let c := mkColumn (txt "a") innodb_varchar field_varchar 1 40 VNil false false false 0 in
  update_in_log rt [(40, two_columns c)] [] [] [update_file old_text] [] [EEnd] [] [] [] (update_from old_text) (two_columns c) [(txt "id", txt "7")] c (txt "x" ++ txt "';" ++ txt "drop table t;-- ")
  /\ text_column c /\ literal (txt "x") = true
  /\ ParseRedoLogs rt [(40, two_columns c)] [] [] [Some (log_events (update_file old_text))] 0 = ([txt "update `d`.`t` set `a`='x';drop table t;-- ' where `id`='7';"], Ok None).
Proof. intro c. split; [apply breakout_log; cbn; [tauto|lia|lia]|]. split; [left; reflexivity|]. split; reflexivity. Qed.
Example C134_decimal_case rt : let c := mkColumn (txt "a") innodb_fixbinary field_newdecimal 1 5 VNil false false false 0 in
  update_in_log rt [(40, two_columns c)] [] [] [update_file old_number] [] [EEnd] [] [] [] (update_from old_number) (two_columns c) [(txt "id", txt "7")] c ([128] ++ txt "';" ++ txt "# ")
  /\ decimal_column c /\ literal [128] = true
  /\ ParseRedoLogs rt [(40, two_columns c)] [] [] [Some (log_events (update_file old_number))] 0
     = ([decimal_message; txt "update `d`.`t` set `a`='" ++ [128] ++ txt "';# ' where `id`='7';"], Ok None).
Proof. intro c. split; [apply breakout_log; cbn; [tauto|lia|lia]|]. split; [split; reflexivity|]. split; reflexivity. Qed.
(** d.t(id int, a date, b varbinary(9)) as the dictionary has it, with the
    columns InnoDB adds *)
Definition plain_sample : Table := mkTable (txt "d") (txt "t")
  [mkColumn (txt "id") innodb_int 3 0 4 VNil false false true 40; mkColumn (txt "DB_TRX_ID") 0 0 1 6 VNil false false false 40; mkColumn (txt "DB_ROLL_PTR") 0 0 2 7 VNil false false false 40;
   mkColumn (txt "a") innodb_int field_date 1 3 VNil true false false 40; mkColumn (txt "b") innodb_binary field_varchar 2 9 VNil true true false 40]
  [(1, mkIndex 1 (txt "PRIMARY") 1 3 [mkField 0 (txt "id")])] 2 0.
Example C134_plain_case : let rt := Build_runtime (fun _ => txt "1.5") (fun _ => txt "1.5") (fun _ => 28800) in
  plain_runtime rt /\ plain_table plain_sample /\ byte_files [Some (log_events (update_file old_text))] /\ only_update (txt "update `d`.`t` set `a`='2020-05-06' and `b`='27' where `id`='7';").
Proof.
  intro rt. assert (N : plain_table plain_sample).
  { split; [vm_compute; lia|]. split; [vm_compute; lia|]. split; [repeat (constructor; [split; [vm_compute; tauto|vm_compute; lia]|]); constructor|]. repeat (constructor; [repeat (constructor; [vm_compute; lia|]); constructor|]). constructor. }
  split; [split; [reflexivity|]; split; [reflexivity|]; intro; cbn; lia|]. split; [exact N|]. split.
  - intros evs b [E|[]] Hb. injection E as <-. assert (X : forallb (fun e => match e with IoBytes l => forallb (fun x => (0 <=? x) && (x <? 256)) l | IoErr => true end) (log_events (update_file old_text)) = true) by reflexivity.
    rewrite forallb_forall in X. specialize (X _ Hb). cbn in X. rewrite forallb_forall in X. apply Forall_forall. intros x Hx. specialize (X x Hx). lia.
  - exact (update_only rt plain_sample [(txt "id", VUint 7)] [set_value (mkColumn (txt "a") innodb_int field_date 1 3 VNil true false false 40) (VStr (txt "2020-05-06")) false; set_value (mkColumn (txt "b") innodb_binary field_varchar 2 9 VNil true true false 40) (VStr (txt "27")) true] N
      ltac:(repeat constructor; vm_compute; lia) ltac:(repeat constructor; vm_compute; lia)).
Qed.

(** * C117: texts in UPDATE statements *)
(** A text that can be written as it is comes out in the bytes of its column's
    set: a client reads it as it was exactly if its set writes it so. *)
Theorem C117_update_refuted : forall rt tm want_db want_tb spare fs es1 es2 tail l1 l2 u t key c (set : charset) text,
  update_in_log rt tm want_db want_tb fs es1 es2 tail l1 l2 u t key c (set text) -> text_column c -> literal (set text) = true ->
  exists line v, ParseRedoLogs rt tm want_db want_tb (map (fun f => Some (log_events f)) fs) spare = (l1 ++ line :: l2, Ok None)
    /\ read_update line = Some (t_db t, t_name t, [(c_name c, v, [])], map (fun k => (fst k, SStr (snd k))) key)
    /\ forall client, reads_as client v text <-> client text = set text.
Proof.
  intros rt tm want_db want_tb spare fs es1 es2 tail l1 l2 u t key c set text HU HT HL.
  destruct (C97_value_partial rt tm want_db want_tb spare fs es1 es2 tail l1 l2 u t key c (set text) (set text) HU) as [line [E1 E2]]; [left; unfold text_column in HT; tauto|].
  exists line, (SStr (set text)). split; [exact E1|]. split; [exact E2|]. intro client. unfold reads_as. split; [intro X; injection X as X; congruence|intros ->; reflexivity].
Qed.
Print Assumptions C117_update_refuted.
Lemma wide_raw pair chs k : two_byte pair -> Forall (char_of pair) chs -> Forall (fun ch => ch <> [39] /\ ch <> [92]) chs -> hd 0 k <> 39 ->
  lex_wide pair (List.concat chs ++ 39 :: k) = Some (List.concat chs, k).
Proof.
  intros HP Hc Hn Hk. induction Hc as [|ch chs H _ IH]; cbn [List.concat app].
  - assert (Q : forall d, pair 39 d = false) by (intro d; destruct (pair 39 d) eqn:E; [apply HP in E; lia|reflexivity]). cbn [lex_wide]. destruct k as [|d k]; [reflexivity|]. rewrite Q. change (39 =? 39) with true. cbv iota. cbn in Hk. destruct (Z.eqb_spec d 39); [contradiction|reflexivity].
  - inversion Hn as [|? ? [N1 N2] Hn']; subst. specialize (IH Hn'). destruct H as [[b [-> [Hb Hs]]]|[a [b [-> Hp]]]]; cbn [app].
    + assert (X1 : b <> 39) by congruence. assert (X2 : b <> 92) by congruence. remember (List.concat chs ++ 39 :: k) as r eqn:Er. destruct r as [|d r]; [destruct chs as [|[|? ?] ?]; destruct (List.concat _); discriminate Er|].
      cbn [lex_wide]. rewrite Hs. destruct (Z.eqb_spec b 39); [contradiction|]. destruct (Z.eqb_spec b 92); [contradiction|]. cbn [lex_wide] in IH. now rewrite IH.
    + cbn [lex_wide]. rewrite Hp. now rewrite IH.
Qed.
(** A client with a set of two-byte characters reads an UPDATE right where it
    reads a REPLACE wrong: characters with a backslash as second byte are
    printed as they are. *)
Theorem C117_update_partial : forall rt tm want_db want_tb spare fs es1 es2 tail l1 l2 u t key c pair chars,
  update_in_log rt tm want_db want_tb fs es1 es2 tail l1 l2 u t key c (List.concat chars) -> text_column c ->
  two_byte pair -> Forall (char_of pair) chars -> Forall (fun ch => ch <> [39] /\ ch <> [92]) chars ->
  exists line rest, ParseRedoLogs rt tm want_db want_tb (map (fun f => Some (log_events f)) fs) spare = (l1 ++ line :: l2, Ok None)
    /\ line = txt "update `" ++ t_db t ++ txt "`.`" ++ t_name t ++ txt "` set `" ++ c_name c ++ txt "`='" ++ rest
    /\ lex_wide pair rest = Some (List.concat chars, txt " where " ++ conditions key ++ txt ";").
Proof.
  intros rt tm want_db want_tb spare fs es1 es2 tail l1 l2 u t key c pair chs HU HT HP Hc Hn.
  exists (undo_statement (t_db t) (t_name t) [(c_name c, Some (List.concat chs))] key), (List.concat chs ++ 39 :: txt " where " ++ conditions key ++ txt ";").
  split; [exact (text_update rt tm want_db want_tb spare fs es1 es2 tail l1 l2 u t key c _ HU HT)|]. split.
  - unfold undo_statement. rewrite conditions_joined. cbn [map SpecRedo.joined fst snd equals]. unfold equals. change (txt "` set `") with (txt "` set " ++ txt "`"). change (39 :: ?x) with (txt "'" ++ x). rewrite <- !app_assoc. reflexivity.
  - apply wide_raw; try assumption. vm_compute. discriminate.
Qed.
Print Assumptions C117_update_partial.
Example C117_update_case rt : let c := mkColumn (txt "a") innodb_varchar field_varchar 1 9 VNil false false false 0 in
  update_in_log rt [(40, two_columns c)] [] [] [update_file [171; 205]] [] [EEnd] [] [] [] (update_from [171; 205]) (two_columns c) [(txt "id", txt "7")] c (List.concat [[171; 205]])
  /\ text_column c /\ two_byte gbk /\ Forall (char_of gbk) [[171; 205]] /\ Forall (fun ch => ch <> [39] /\ ch <> [92]) [[171; 205]]
  /\ [171; 205] = SpecChars.one_byte (fun b => b) [171; 205] /\ literal (SpecChars.one_byte (fun b => b) [171; 205]) = true /\ utf8_set [171; 205] <> SpecChars.one_byte (fun b => b) [171; 205].
Proof.
  intro c. split; [apply update_file_log; cbn; [tauto|lia|lia]|]. split; [left; reflexivity|]. split; [intros a b H; unfold gbk in H; lia|]. split; [constructor; [right; exists 171, 205; split; reflexivity|constructor]|].
  split; [constructor; [split; discriminate|constructor]|]. split; [reflexivity|]. split; [reflexivity|]. vm_compute. discriminate.
Qed.
