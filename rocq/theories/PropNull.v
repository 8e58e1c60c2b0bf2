(** Properties C96 and C97: NULL in BIT columns of REPLACE statements, and
    binary and BIT columns in UPDATE statements. *)
From Coq Require Import ZifyBool.
From Verif Require Import GoBase Utils Ibdata Redo SpecInno SpecText SpecSql SpecRecord SpecRow SpecRedo SpecUndo PBase PWire PValue PText PSql PRec PRedo PStep PUndo PLog PToolRedo PropValue PropSql PropRedo.
Local Open Scope list_scope.

(** * C96 *)
Lemma null_bit_text rt c k : is_bit c -> is_null_value (c_value c) = true -> read_value (column_text rt c ++ k) = None.
Proof.
  intros Hb Hn. unfold column_text, is_bit in *. rewrite Hb, Hn. change (16 =? MYSQL_TYPE_BIT) with true. cbn [negb].
  destruct (c_binary c); reflexivity.
Qed.
Lemma read_column_some rt c v k : stands_for rt c v -> (forall t, v = SStr t -> all_bytes t) -> val_end k ->
  read_value (column_text rt c ++ k) = None \/ exists w, read_value (column_text rt c ++ k) = Some (w, k).
Proof.
  intros H Hb Hk. destruct H as [c Hv Hbit|c t Ht Hbit Hn|c h b Hv Hh Hbit Hn|c n Hv Hbit Hn].
  - right. exists SNull. apply read_column; [now apply st_null|exact I|exact Hk].
  - right. destruct (text_of_fmt rt _ _ Ht) as [EF Hnil]. specialize (Hb t eq_refl). destruct (is_null_value (c_value c)) eqn:EN.
    + exists SNull. rewrite column_text_null by assumption. rewrite Hn. cbn [app]. rewrite app_nil_r. reflexivity.
    + rewrite column_text_plain by assumption. rewrite EF. cbn [app]. rewrite <- app_assoc. destruct (beq t PSql.magic) eqn:EM.
      * apply beq_eq in EM. exists (SStr []). rewrite EM, escape_magic. cbn [app]. change (39 :: 39 :: k) with (39 :: EscapeValue [] ++ 39 :: k).
        apply read_value_str; [constructor|discriminate|now apply val_end_nq].
      * apply beq_neq in EM. exists (SStr t). apply read_value_str; [assumption|assumption|now apply val_end_nq].
  - right. exists (SBytes b). apply read_column; [now apply (st_bytes rt c h)|exact I|exact Hk].
  - unfold column_text, is_bit in *. rewrite Hbit, Hv, Hn. change (16 =? MYSQL_TYPE_BIT) with true. cbn [is_null_value negb app].
    pose proof (fmt_d_spec n) as HT. destruct (int_text_facts _ _ HT) as [T1 [T2 _]]. cbn [fmt_v]. rewrite escape_not_magic by assumption.
    rewrite esc1_id by (destruct (int_text_chars _ _ HT) as [T3 _]; revert T3; apply Forall_impl; intros a [->|Ha]; [reflexivity|]; unfold digit in Ha; unfold esc_of; repeat (eqcase; [lia|]); reflexivity).
    unfold read_value. rewrite <- !app_assoc. cbn [app]. change (bs "b") with [98]. change (bs "'") with [39]. cbn [app]. rewrite <- ?app_assoc. cbn [app].
    change (strip (txt "b'") (98 :: 39 :: ?x)) with (Some x). cbv iota.
    destruct HT as [[_ HT]|[_ [t' [E' _]]]]; [|left; rewrite E'; reflexivity].
    rewrite lex_bits_digits by apply HT. destruct (forallb _ _); [right; eexists; reflexivity|now left].
Qed.
Lemma read_columns_none rt bad cs2 k : user bad = true -> (forall r, read_value (column_text rt bad ++ r) = None) -> forall cs vs c v f,
  Forall2 (stands_for rt) (c :: cs) (v :: vs) -> (forall t, In (SStr t) (v :: vs) -> all_bytes t) -> Forall (fun c => user c = true) (c :: cs) ->
  read_values f (column_text rt c ++ columns_text rt false (cs ++ bad :: cs2) ++ k) = None.
Proof.
  intros Hu Hbad. induction cs as [|c' cs IH]; intros vs c v f H Hb HU; (destruct f as [|f]; [reflexivity|]); cbn [read_values app]; inversion H as [|? ? ? ? H1 H2]; subst.
  - cbn [columns_text]. unfold user in Hu. apply negb_true_iff in Hu. rewrite Hu. rewrite <- !app_assoc. change (bs ",") with [44]. cbn [app].
    destruct (read_column_some rt c v (44 :: column_text rt bad ++ columns_text rt false cs2 ++ k) H1) as [->|[w ->]]; [intros t ->; apply Hb; now left|cbn; tauto|reflexivity|].
    change (strip (txt ",") (44 :: ?x)) with (Some x). cbv iota. destruct f; [reflexivity|]. cbn [read_values]. now rewrite Hbad.
  - inversion H2 as [|? v' ? vs' G1 G2]; subst. cbn [columns_text]. pose proof (Forall_inv (Forall_inv_tail HU)) as G3. cbv beta in G3. unfold user in G3. apply negb_true_iff in G3. rewrite G3.
    rewrite <- !app_assoc. change (bs ",") with [44]. cbn [app].
    match goal with |- context [read_value (column_text rt c ++ ?k0)] => destruct (read_column_some rt c v k0 H1) as [->|[w ->]] end; [intros t ->; apply Hb; now left|cbn; tauto|reflexivity|].
    change (strip (txt ",") (44 :: ?x)) with (Some x). cbv iota. rewrite (IH vs' c' v' f); [reflexivity|assumption|intros t Ht; apply Hb; now right|exact (Forall_inv_tail HU)].
Qed.
(** False: the statement of every row with a NULL in a BIT column is no
    statement at all, whatever the other columns hold. *)
Theorem C96_null_bit_refuted : forall rt db tb row before c after vals,
  ~ In 96 db -> ~ In 96 tb ->
  (forall x, In x (before ++ c :: after) -> ~ internal x) ->
  (exists f, before ++ c :: after = filter f row /\ forall x, In x row -> f x = false -> internal x) ->
  Forall2 (stands_for rt) before vals -> (forall t, In (SStr t) vals -> all_bytes t) ->
  is_bit c -> c_value c = VNil \/ c_value c = VStr (txt "NULL") ->
  exists line, makeReplaceIntoStatement rt [row] tb db = ([line], Ok tt) /\ read_replace line = None.
Proof.
  intros rt db tb row before c after vals Hd Ht Hint [f [Ef Hf]] HB Hb Hbit Hv. exists (replace_statement rt tb db row). split; [reflexivity|].
  assert (E : filter user row = before ++ c :: after).
  { rewrite Ef. apply filter_ext_in. intros x Hx. destruct (f x) eqn:Efx.
    - apply user_spec. apply Hint. rewrite Ef. apply filter_In. now split.
    - apply not_true_iff_false. rewrite user_spec. intro X. apply X. now apply Hf. }
  assert (Hall : Forall (fun x => user x = true) (before ++ c :: after)).
  { rewrite <- E. apply Forall_forall. intros x Hx. apply filter_In in Hx. tauto. }
  assert (Hbad : forall r, read_value (column_text rt c ++ r) = None) by (intro r; apply null_bit_text; [exact Hbit|now apply is_null_spec]).
  unfold replace_statement, read_replace.
  change (bs "replace into `") with (txt "replace into " ++ [96]). rewrite <- app_assoc, strip_app.
  change ([96] ++ db ++ ?x) with (96 :: db ++ x).
  change (bs "`.`" ++ ?x) with (96 :: 46 :: 96 :: x). change (bs "` values (" ++ ?x) with (96 :: txt " values (" ++ x).
  rewrite read_table_plain; [|assumption|assumption|cbn; lia]. rewrite strip_app.
  rewrite columns_text_user, E. set (n := List.length _). clearbody n.
  assert (Hc : user c = true) by (apply Forall_app in Hall; exact (Forall_inv (proj2 Hall))).
  destruct before as [|b before]; cbn [app columns_text].
  - unfold user in Hc. apply negb_true_iff in Hc. rewrite Hc. cbn [app]. rewrite <- app_assoc. destruct n; [reflexivity|]. cbn [read_values]. now rewrite Hbad.
  - pose proof (Forall_inv Hall) as G. cbv beta in G. unfold user in G. apply negb_true_iff in G. rewrite G. cbn [app]. rewrite <- app_assoc.
    destruct vals as [|v vals]; [inversion HB|].
    rewrite (read_columns_none rt c after _ Hc Hbad before vals b v n HB Hb); [reflexivity|].
    apply Forall_app in Hall. exact (proj1 Hall).
Qed.
Print Assumptions C96_null_bit_refuted.
Example C96_refuted_case rt : makeReplaceIntoStatement rt [[col (txt "id") 3 (VInt 5) false; col (txt "flags") 16 (VStr (txt "NULL")) false]] (txt "t") (txt "d")
  = ([txt "replace into `d`.`t` values ('5',bNULL);"], Ok tt) /\ read_replace (txt "replace into `d`.`t` values ('5',bNULL);") = None.
Proof. split; reflexivity. Qed.
(** Full statement: NULL is read back as NULL in every column.  Proved: in every
    column that is not a BIT column (binary ones included). *)
Theorem C96_null_partial : forall rt db tb c, ~ In 96 db -> ~ In 96 tb -> ~ internal c -> ~ is_bit c ->
  c_value c = VNil \/ c_value c = VStr (txt "NULL") ->
  exists line, makeReplaceIntoStatement rt [[c]] tb db = ([line], Ok tt) /\ read_replace line = Some (db, tb, [SNull]).
Proof.
  intros rt db tb c Hd Ht Hi Hb Hv. apply (C26_replace_partial rt db tb [c] [c] [SNull]); try assumption.
  - intros x [<-|[]]. exact Hi.
  - exists (fun _ => true). split; [reflexivity|discriminate].
  - discriminate.
  - constructor; [now apply st_null|constructor].
  - intros v [<-|[]]. exact I.
Qed.
Print Assumptions C96_null_partial.
Example C96_case : ~ internal (col (txt "a") 252 VNil true) /\ ~ is_bit (col (txt "a") 252 VNil true) /\ c_binary (col (txt "a") 252 VNil true) = true.
Proof. split; [intros [H|[H|H]]; discriminate H|]. split; [discriminate|reflexivity]. Qed.

(** * C97 *)
Lemma log_lines_app rt tm db tb a es2 l2 : log_lines rt tm db tb a es2 l2 -> forall es1 l1,
  log_lines rt tm db tb (zlen (flat_map enc_entry es2) + a) es1 l1 -> log_lines rt tm db tb a (es1 ++ es2) (l1 ++ l2).
Proof.
  intros H2 es1 l1 H1.
  assert (L : forall es, zlen (flat_map enc_entry es) + (zlen (flat_map enc_entry es2) + a) = zlen (flat_map enc_entry (es ++ es2)) + a).
  { intro es. rewrite flat_map_app. unfold zlen. rewrite app_length. lia. }
  remember (zlen (flat_map enc_entry es2) + a) as a1 eqn:Ea. clear Ea.
  induction H1 as [|es l H IH|lsn es l Hl H IH|single sp pg b es l Hs Hp Hb Ho Hr H IH|single sp pg u es l l' Hs Hp Hu HU H IH]; cbn [app].
  - exact H2.
  - apply ll_end. exact IH.
  - apply ll_checkpoint; assumption.
  - apply ll_record; try assumption. rewrite <- L. exact Hr.
  - rewrite <- app_assoc. apply ll_undo; try assumption. rewrite <- L; exact HU.
Qed.
Lemma literal_plain s : (forall x, In x s -> x <> 39 /\ x <> 92) -> literal s = true.
Proof.
  induction s as [|c s IH]; intro H; [reflexivity|]. cbn [literal]. destruct (H c (or_introl eq_refl)). eqcase; [contradiction|]. eqcase; [contradiction|].
  apply IH. intros x Hx. apply H. now right.
Qed.
(** A log in files [fs] whose entries are [es1], an update undo record of the
    requested table [t] that changed only column [c], from the stored bytes
    [b], and [es2]; the other entries print [l1] and [l2]. *)
Definition update_in_log rt tm want_db want_tb (fs : list log_file) es1 es2 tail l1 l2 u t key (c : Column) (b : list Z) : Prop :=
  exists single space page names p,
  let here := ERecord single space page (BUndo (enc_undo u)) in
  let rest := zlen (flat_map enc_entry es2) + zlen tail in
  Forall file_ok fs
  /\ flat_map (fun f => payloads (lf_blocks f)) fs = flat_map enc_entry (es1 ++ here :: es2) ++ tail
  /\ zlen (flat_map enc_entry (es1 ++ here :: es2) ++ tail) < 2 ^ 32 - 1 /\ zlen tail < 5
  /\ (forall k t, mget tm k = Some t -> want_db = [] \/ want_tb = [] \/ want_db = t_db t \/ want_tb <> t_name t)
  /\ log_lines rt tm want_db want_tb (zlen (enc_entry here) + rest) es1 l1 /\ log_lines rt tm want_db want_tb (zlen tail) es2 l2
  /\ word space /\ word page /\ undo_ok u /\ undo_room u rest
  /\ mget tm (un_table u) = Some t /\ un_type u = UNDO_UPDATE /\ requested want_db want_tb (t_db t) (t_name t)
  /\ key_names t names /\ key_shown rt t names (un_keys u) key [] /\ key <> []
  /\ un_changes u = [(p, Some b)] /\ nth_error (t_columns t) (Z.to_nat p) = Some c /\ 0 <= c_len c < 2 ^ 63
  /\ ~ In 96 (t_db t) /\ ~ In 96 (t_name t) /\ ~ In 96 (c_name c)
  /\ Forall (fun k => ~ In 96 (fst k) /\ literal (snd k) = true) key.
Lemma one_update rt tm want_db want_tb spare fs es1 es2 tail l1 l2 u t key c b x :
  update_in_log rt tm want_db want_tb fs es1 es2 tail l1 l2 u t key c b ->
  (forall d, exists v bin, ParseData rt (c_type c) (c_mysql c) (b ++ d) (zlen b) (fixed_of c) (c_unsigned c) (c_binary c) = ([], Ok (v, bin)) /\ text_of rt v x) ->
  literal x = true ->
  exists line, ParseRedoLogs rt tm want_db want_tb (map (fun f => Some (log_events f)) fs) spare = (l1 ++ line :: l2, Ok None)
    /\ read_update line = Some (t_db t, t_name t, [(c_name c, SStr x, [])], map (fun k => (fst k, SStr (snd k))) key).
Proof.
  intros [single [space [page [names [p [Hf [E [Hl [Ht [HF [H1 [H2 [Hs [Hp [Hu [H5 [Hm [Hy [Hr [Hk [HK [Ke [HC [Hn [Hcl [Nd [Nt [Nc KF]]]]]]]]]]]]]]]]]]]]]]]]]]]] HP Lx.
  set (here := ERecord single space page (BUndo (enc_undo u))) in *. set (rest := zlen (flat_map enc_entry es2) + zlen tail) in *.
  exists (undo_statement (t_db t) (t_name t) [(c_name c, Some x)] key). split.
  - apply (C68_log_partial rt tm want_db want_tb spare fs (es1 ++ here :: es2) tail); try assumption.
    apply log_lines_app.
    + change (undo_statement (t_db t) (t_name t) [(c_name c, Some x)] key :: l2) with ([undo_statement (t_db t) (t_name t) [(c_name c, Some x)] key] ++ l2).
      apply ll_undo; try assumption. apply (ul_update rt tm want_db want_tb _ u t names key _ [] []); try assumption.
      rewrite HC. apply old_quiet; [assumption|assumption| |constructor]. intros d _ _. apply HP.
    + replace (zlen (flat_map enc_entry (here :: es2)) + len tail) with (zlen (enc_entry here) + rest); [exact H1|].
      subst rest. cbn [flat_map]. unfold zlen, len. rewrite app_length. lia.
  - rewrite undo_is_text. cbn [map fst snd shown_value]. destruct key as [|k key]; [contradiction|]. cbn [map]. apply update_reads; try assumption.
    + constructor; [|constructor]. split; assumption.
    + change (Forall clean_item (map (fun k0 : bytes * bytes => (fst k0, SStr (snd k0))) (k :: key))). apply Forall_map. revert KF. apply Forall_impl. intros a Ha. exact Ha.
Qed.
Lemma hex_literal h b : unhex h = Some b -> literal h = true.
Proof.
  intro E. apply hex_chars in E. apply literal_plain. intros x Hx. rewrite Forall_forall in E. specialize (E x Hx). split; intros ->; apply E; reflexivity.
Qed.
Lemma unhex_len : forall n h b, (List.length h <= n)%nat -> unhex h = Some b -> List.length h = (2 * List.length b)%nat.
Proof.
  induction n as [|n IH]; intros [|x [|y r]] b Hn E; cbn [List.length] in Hn; try lia; try discriminate E; try (injection E as <-; reflexivity).
  cbn [unhex] in E. destruct (hex_val x); [|discriminate]. destruct (hex_val y); [|discriminate]. destruct (unhex r) as [l|] eqn:Er; [|discriminate]. injection E as <-.
  cbn [List.length]. rewrite (IH r l) by (assumption || lia). lia.
Qed.
Lemma int_literal n t : int_text n t -> literal t = true.
Proof.
  intro H. apply int_text_chars in H as [H _]. apply literal_plain. intros x Hx. rewrite Forall_forall in H. specialize (H x Hx). unfold digit in H. lia.
Qed.
Lemma digits_other n t : int_text n t -> 0 <= n -> be_val t <> n.
Proof.
  intros [[_ [Hd [Hv [Hl _]]]]|[H _]] Hn; [|lia]. destruct t as [|c t]; [cbn in Hl; lia|]. pose proof (Forall_inv Hd) as Hc. apply Forall_inv_tail in Hd. unfold digit in Hc.
  assert (G : forall t a b, Forall digit t -> 0 <= a < b -> fold_left (fun a c => a * 10 + (c - 48)) t a < fold_left (fun a c => a * 256 + c) t b).
  { clear. induction t as [|c t IH]; intros a b H Hab; [exact (proj2 Hab)|]. pose proof (Forall_inv H) as Hc. apply Forall_inv_tail in H. unfold digit in Hc. cbn [fold_left]. apply IH; [exact H|lia]. }
  unfold dec_val, be_val in *. cbn [fold_left] in *. specialize (G t (0 * 10 + (c - 48)) (0 * 256 + c) Hd). lia.
Qed.
Lemma be_zlen k n : zlen (be k n) = Z.of_nat k.
Proof. exact (len_be k n). Qed.
Lemma hex_column rt type mysql s rest fx u b :
  (type = innodb_blob /\ b = true) \/ (type = innodb_binary /\ mysql = field_varchar) \/ (type = innodb_fixbinary /\ mysql = field_string) ->
  ParseData rt type mysql (s ++ rest) (zlen s) fx u b = ([], Ok (VStr (ParseBlob s), true)).
Proof. numbers. intros [[-> ->]|[[-> ->]|[-> ->]]]; unfold ParseData; rewrite slice_to_app by reflexivity; reflexivity. Qed.
(** False for binary columns: the statement sets the column to the hexadecimal
    digits of the old bytes, which are other bytes unless there are none. *)
Theorem C97_binary_refuted : forall rt tm want_db want_tb spare fs es1 es2 tail l1 l2 u t key c b,
  update_in_log rt tm want_db want_tb fs es1 es2 tail l1 l2 u t key c b -> all_bytes b ->
  (c_type c = innodb_blob /\ c_binary c = true) \/ (c_type c = innodb_binary /\ c_mysql c = field_varchar)
  \/ (c_type c = innodb_fixbinary /\ c_mysql c = field_string) ->
  exists line x, ParseRedoLogs rt tm want_db want_tb (map (fun f => Some (log_events f)) fs) spare = (l1 ++ line :: l2, Ok None)
    /\ read_update line = Some (t_db t, t_name t, [(c_name c, SStr x, [])], map (fun k => (fst k, SStr (snd k))) key)
    /\ unhex x = Some b /\ (x = b <-> b = []).
Proof.
  intros rt tm want_db want_tb spare fs es1 es2 tail l1 l2 u t key c b HU Hb HT.
  pose proof (unhex_blob b Hb) as Hx.
  destruct (one_update rt tm want_db want_tb spare fs es1 es2 tail l1 l2 u t key c b (ParseBlob b) HU) as [line [E1 E2]].
  - intro d. exists (VStr (ParseBlob b)), true. split; [apply hex_column; exact HT|constructor].
  - exact (hex_literal _ _ Hx).
  - exists line, (ParseBlob b). split; [exact E1|]. split; [exact E2|]. split; [exact Hx|]. split.
    + intro X. rewrite X in Hx. pose proof (unhex_len _ b b (le_n _) Hx). destruct b; [reflexivity|cbn [List.length] in *; lia].
    + intros ->. reflexivity.
Qed.
Print Assumptions C97_binary_refuted.
(** False for BIT columns: the statement sets the column to the decimal digits
    of the old number, and their bytes are another number. *)
Theorem C97_bit_refuted : forall rt tm want_db want_tb spare fs es1 es2 tail l1 l2 u t key c k n,
  update_in_log rt tm want_db want_tb fs es1 es2 tail l1 l2 u t key c (store_uint k n) ->
  c_type c = innodb_fixbinary -> c_mysql c = field_bit -> c_len c = Z.of_nat k -> In k [1; 2; 4; 8]%nat -> 0 <= n < 256 ^ Z.of_nat k ->
  exists line x, ParseRedoLogs rt tm want_db want_tb (map (fun f => Some (log_events f)) fs) spare = (l1 ++ line :: l2, Ok None)
    /\ read_update line = Some (t_db t, t_name t, [(c_name c, SStr x, [])], map (fun k => (fst k, SStr (snd k))) key)
    /\ int_text n x /\ be_val x <> n.
Proof.
  intros rt tm want_db want_tb spare fs es1 es2 tail l1 l2 u t key c k n HU HT HM HL Hk Hn.
  destruct (one_update rt tm want_db want_tb spare fs es1 es2 tail l1 l2 u t key c _ (fmt_d n) HU) as [line [E1 E2]].
  - intro d. exists (VUint n), (c_binary c). split; [|apply text_uint, fmt_d_spec].
    replace (zlen (store_uint k n)) with (Z.of_nat k) by (unfold store_uint; rewrite be_zlen; reflexivity).
    replace (fixed_of c) with (Z.of_nat k) by (unfold fixed_of; rewrite HT; cbn; symmetry; exact HL). rewrite HT, HM. apply C12_bit_partial. left. now split.
  - exact (int_literal _ _ (fmt_d_spec n)).
  - exists line, (fmt_d n). split; [exact E1|]. split; [exact E2|]. split; [apply fmt_d_spec|]. apply digits_other; [apply fmt_d_spec|lia].
Qed.
Print Assumptions C97_bit_refuted.
(** Full statement: the old value is given back in every column.  Proved: text
    columns with values that can be written as they are, and integers.  Missing
    (false): binary and BIT columns. *)
Theorem C97_value_partial : forall rt tm want_db want_tb spare fs es1 es2 tail l1 l2 u t key c b x,
  update_in_log rt tm want_db want_tb fs es1 es2 tail l1 l2 u t key c b ->
  ((c_type c = innodb_varchar \/ c_type c = innodb_char \/ c_type c = innodb_varmysql \/ (c_type c = innodb_blob /\ c_binary c = false)) /\ x = b /\ literal b = true)
  \/ (exists k n, b = store_int k n /\ c_type c = innodb_int /\ c_unsigned c = false /\ c_len c = Z.of_nat k /\ In k [1; 2; 3; 4; 8]%nat
        /\ c_mysql c <> field_date /\ c_mysql c <> field_year /\ - 2 ^ (8 * Z.of_nat k - 1) <= n < 2 ^ (8 * Z.of_nat k - 1) /\ int_text n x)
  \/ (exists k n, b = store_uint k n /\ c_type c = innodb_int /\ c_unsigned c = true /\ c_len c = Z.of_nat k /\ In k [1; 2; 4; 8]%nat
        /\ c_mysql c <> field_date /\ c_mysql c <> field_year /\ 0 <= n < 256 ^ Z.of_nat k /\ int_text n x) ->
  exists line, ParseRedoLogs rt tm want_db want_tb (map (fun f => Some (log_events f)) fs) spare = (l1 ++ line :: l2, Ok None)
    /\ read_update line = Some (t_db t, t_name t, [(c_name c, SStr x, [])], map (fun k => (fst k, SStr (snd k))) key).
Proof.
  intros rt tm want_db want_tb spare fs es1 es2 tail l1 l2 u t key c b x HU [[HT [-> Hl]]|[[k [n [-> [HT [HS [HL [Hk [M1 [M2 [Hn Hx]]]]]]]]]]|[k [n [-> [HT [HS [HL [Hk [M1 [M2 [Hn Hx]]]]]]]]]]]].
  - apply (one_update rt tm want_db want_tb spare fs es1 es2 tail l1 l2 u t key c b b HU); [|exact Hl]. intro d. exists (VStr b), (c_binary c). split; [|constructor].
    apply C19_text_exact. tauto.
  - apply (one_update rt tm want_db want_tb spare fs es1 es2 tail l1 l2 u t key c _ x HU); [|exact (int_literal _ _ Hx)]. intro d.
    destruct (C09_signed_int rt (c_mysql c) k n d (c_binary c) Hk M1 M2 Hn) as [g [E [Hg _]]]. exists g, (c_binary c). split.
    + replace (zlen (store_int k n)) with (Z.of_nat k) by (unfold store_int, store_uint; rewrite ?be_zlen; reflexivity).
      replace (fixed_of c) with (Z.of_nat k) by (unfold fixed_of; rewrite HT; cbn; symmetry; exact HL). rewrite HT, HS. exact E.
    + destruct Hg as [-> | ->]; constructor; exact Hx.
  - apply (one_update rt tm want_db want_tb spare fs es1 es2 tail l1 l2 u t key c _ x HU); [|exact (int_literal _ _ Hx)]. intro d.
    destruct (C10_unsigned_int rt (c_mysql c) k n d (c_binary c) Hk M1 M2 Hn) as [E _]. exists (VUint n), (c_binary c). split; [|constructor; exact Hx].
    replace (zlen (store_uint k n)) with (Z.of_nat k) by (unfold store_uint; rewrite be_zlen; reflexivity).
    replace (fixed_of c) with (Z.of_nat k) by (unfold fixed_of; rewrite HT; cbn; symmetry; exact HL). rewrite HT, HS. exact E.
Qed.
Print Assumptions C97_value_partial.
(** A table d.t of an id and one more column, and a log with an update of that
    column from the bytes b. *)
Definition two_columns (c : Column) : Table :=
  mkTable (txt "d") (txt "t") [uint_col (txt "id"); c] [(1, mkIndex 1 (txt "PRIMARY") 1 3 [mkField 0 (txt "id")])] 0 0.
Definition update_from (b : list Z) : undo := mkUndo UNDO_UPDATE 0 false 3 40 0 77 99 [store_uint 4 7] [(1, Some b)] [0; 5].
Definition update_file (b : list Z) : log_file :=
  let p := enc_entry (ERecord true 0 5 (BUndo (enc_undo (update_from b)))) ++ enc_entry EEnd in
  mkLogFile (lf_header sample_file) (lf_cp1 sample_file) (lf_unused sample_file) (lf_cp2 sample_file) [block_with (12 + len p) p; block_with 0 []].
Lemma update_file_log rt c b : In b [[171; 205]; store_uint 2 5] -> 0 <= c_len c < 2 ^ 63 -> ~ In 96 (c_name c) ->
  update_in_log rt [(40, two_columns c)] [] [] [update_file b] [] [EEnd] [] [] [] (update_from b) (two_columns c) [(txt "id", txt "7")] c b.
Proof.
  intros Hb Hc Hn. exists true, 0, 5, [txt "id"], 1. cbv zeta.
  assert (F : file_ok (update_file b)).
  { destruct sample_file_ok as [H1 [H2 [H3 [H4 [H5 [H6 H7]]]]]]. unfold file_ok, update_file. cbn [lf_header lf_cp1 lf_unused lf_cp2 lf_blocks].
    do 6 (split; [assumption|]). destruct Hb as [<-|[<-|[]]]; (constructor; [apply block_check; reflexivity|]; constructor; [apply block_check; reflexivity|constructor]). }
  split; [constructor; [exact F|constructor]|]. split; [destruct Hb as [<-|[<-|[]]]; reflexivity|].
  split; [destruct Hb as [<-|[<-|[]]]; vm_compute; reflexivity|]. split; [reflexivity|]. split; [auto|]. split; [constructor|]. split; [apply ll_end, ll_nil|].
  split; [unfold word; lia|]. split; [unfold word; lia|]. split.
  { unfold undo_ok. cbn [update_from un_type un_cmpl un_no un_table un_info un_trx un_roll un_keys un_changes]. split; [cbn; unfold UNDO_INSERT, UNDO_UPDATE; tauto|].
    do 6 (split; [lia|]). split; [constructor; [reflexivity|constructor]|]. split; [reflexivity|].
    split; [|destruct Hb as [<-|[<-|[]]]; reflexivity]. constructor; [|constructor]. destruct Hb as [<-|[<-|[]]]; unfold field_ok; cbn; unfold zlen; cbn; lia. }
  split; [destruct Hb as [<-|[<-|[]]]; right; vm_compute; discriminate|]. split; [reflexivity|]. split; [reflexivity|]. split; [split; now left|]. split.
  { exists [], 1, (mkIndex 1 (txt "PRIMARY") 1 3 [mkField 0 (txt "id")]), []. repeat split; [constructor|]. left. split; reflexivity. }
  split. { eapply key_quiet; [apply cn_here; reflexivity|cbn; lia| |left; apply text_uint; exact (fmt_d_spec 7)|constructor]. reflexivity. }
  split; [discriminate|]. split; [reflexivity|]. split; [reflexivity|]. split; [exact Hc|]. split; [cbn; lia|]. split; [cbn; lia|]. split; [exact Hn|].
  constructor; [|constructor]. split; [cbn; lia|reflexivity].
Qed.
Example C97_binary_case rt : let c := mkColumn (txt "a") innodb_binary field_varchar 1 9 VNil false true false 0 in
  update_in_log rt [(40, two_columns c)] [] [] [update_file [171; 205]] [] [EEnd] [] [] [] (update_from [171; 205]) (two_columns c) [(txt "id", txt "7")] c [171; 205]
  /\ ParseRedoLogs rt [(40, two_columns c)] [] [] [Some (log_events (update_file [171; 205]))] 0 = ([txt "update `d`.`t` set `a`='abcd' where `id`='7';"], Ok None).
Proof. intro c. split; [apply update_file_log; cbn; [tauto|lia|lia]|reflexivity]. Qed.
Example C97_bit_case rt : let c := mkColumn (txt "f") innodb_fixbinary field_bit 1 2 VNil false false false 0 in
  update_in_log rt [(40, two_columns c)] [] [] [update_file (store_uint 2 5)] [] [EEnd] [] [] [] (update_from (store_uint 2 5)) (two_columns c) [(txt "id", txt "7")] c (store_uint 2 5)
  /\ ParseRedoLogs rt [(40, two_columns c)] [] [] [Some (log_events (update_file (store_uint 2 5)))] 0 = ([txt "update `d`.`t` set `f`='5' where `id`='7';"], Ok None)
  /\ be_val (txt "5") = 53.
Proof. intro c. split; [apply update_file_log; cbn; [tauto|lia|lia]|split; reflexivity]. Qed.
Example C97_value_case rt : let c := mkColumn (txt "a") innodb_varchar field_varchar 1 9 VNil false false false 0 in
  update_in_log rt [(40, two_columns c)] [] [] [update_file [171; 205]] [] [EEnd] [] [] [] (update_from [171; 205]) (two_columns c) [(txt "id", txt "7")] c [171; 205]
  /\ literal [171; 205] = true.
Proof. intro c. split; [apply update_file_log; cbn; [tauto|lia|lia]|reflexivity]. Qed.
