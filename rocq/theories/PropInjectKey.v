(** C134: SQL in the key of an updated row. *)
From Coq Require Import ZifyBool.
From Verif Require Import GoBase Utils Ibdata Redo SpecInno SpecText SpecSql SpecRecord SpecRow SpecRedo SpecUndo SpecCmd SpecChars SpecInject SpecInjectRedo PBase PWire PValue PText PSql PRec PRedo PStep PUndo PLog PToolRedo PropValue PropSql PropRedo PropNull PropUniqueRedo PropInjectRedo.
Local Open Scope list_scope.
Local Open Scope Z_scope.

(** A log with an update of one column of type text, from a value that can be
    written as it is; the key is any. *)
Definition keyed_update rt tm want_db want_tb (fs : list log_file) es1 es2 tail l1 l2 u t key (c : Column) (b : list Z) : Prop :=
  exists single space page names p,
  let here := ERecord single space page (BUndo (enc_undo u)) in
  let rest := zlen (flat_map enc_entry es2) + zlen tail in
  Forall file_ok fs
  /\ flat_map (fun f => payloads (lf_blocks f)) fs = flat_map enc_entry (es1 ++ here :: es2) ++ tail
  /\ zlen (flat_map enc_entry (es1 ++ here :: es2) ++ tail) < 2 ^ 32 - 1 /\ zlen tail < 5
  /\ (forall k t, mget tm k = Some t -> want_db = [] \/ want_tb = [] \/ want_db = t_db t \/ want_tb <> t_name t)
  /\ log_lines rt tm want_db want_tb (zlen (enc_entry here) + rest) es1 l1 /\ log_lines rt tm want_db want_tb (zlen tail) es2 l2
  /\ word space /\ word page /\ undo_ok u /\ undo_room u rest
  /\ mget tm (un_table u) = Some t /\ un_type u = UNDO_UPDATE /\ requested want_db want_tb (t_db t) (t_name t)
  /\ key_names t names /\ key_shown rt t names (un_keys u) key []
  /\ un_changes u = [(p, Some b)] /\ nth_error (t_columns t) (Z.to_nat p) = Some c /\ 0 <= c_len c < 2 ^ 63
  /\ text_column c /\ literal b = true
  /\ ~ In 96 (t_db t) /\ ~ In 96 (t_name t) /\ ~ In 96 (c_name c).
Lemma keyed_line rt tm want_db want_tb spare fs es1 es2 tail l1 l2 u t key c b :
  keyed_update rt tm want_db want_tb fs es1 es2 tail l1 l2 u t key c b ->
  ParseRedoLogs rt tm want_db want_tb (map (fun f => Some (log_events f)) fs) spare = (l1 ++ undo_statement (t_db t) (t_name t) [(c_name c, Some b)] key :: l2, Ok None).
Proof.
  intros [single [space [page [names [p [Hf [E [Hl [Ht [HF [H1 [H2 [Hs [Hp [Hu [H5 [Hm [Hy [Hr [Hk [HK [HC [Hn [Hcl [HT _]]]]]]]]]]]]]]]]]]]]]]]]].
  set (here := ERecord single space page (BUndo (enc_undo u))) in *. set (rest := zlen (flat_map enc_entry es2) + zlen tail) in *.
  apply (C68_log_partial rt tm want_db want_tb spare fs (es1 ++ here :: es2) tail); try assumption. apply log_lines_app.
  - change (undo_statement (t_db t) (t_name t) [(c_name c, Some b)] key :: l2) with ([undo_statement (t_db t) (t_name t) [(c_name c, Some b)] key] ++ l2).
    apply ll_undo; try assumption. apply (ul_update rt tm want_db want_tb _ u t names key _ [] []); try assumption.
    rewrite HC. apply old_quiet; [assumption|assumption| |constructor]. intros d _ _. exists (VStr b), (c_binary c). split; [|constructor]. apply C19_text_exact. unfold text_column in HT. tauto.
  - replace (zlen (flat_map enc_entry (here :: es2)) + len tail) with (zlen (enc_entry here) + rest); [exact H1|]. subst rest. cbn [flat_map]. unfold zlen, len. rewrite app_length. lia.
Qed.
Definition as_item (k : bytes * bytes) : item := (fst k, SStr (snd k)).
Lemma join_more a l : join_and (map item_text (map as_item (a :: l))) = item_text (as_item a) ++ flat_map (fun k => txt " and " ++ conditions [k]) l.
Proof.
  revert a. induction l as [|b l IH]; intro a; [cbn [map join_and flat_map]; now rewrite app_nil_r|].
  change (join_and (map item_text (map as_item (a :: b :: l)))) with (item_text (as_item a) ++ txt " and " ++ join_and (map item_text (map as_item (b :: l)))).
  rewrite IH. cbn [flat_map]. destruct b as [n v]. rewrite <- !app_assoc. reflexivity.
Qed.
Lemma join_cut k1 n a x k2 : join_and (map item_text (map as_item (k1 ++ (n, a ++ txt "';" ++ x) :: k2))) ++ [59]
  = join_and (map item_text (map as_item (k1 ++ [(n, a)]))) ++ txt ";" ++ x ++ txt "'" ++ flat_map (fun k => txt " and " ++ conditions [k]) k2 ++ txt ";".
Proof.
  assert (B : item_text (as_item (n, a ++ txt "';" ++ x)) = item_text (as_item (n, a)) ++ txt ";" ++ x ++ txt "'").
  { unfold item_text, as_item. cbn [fst snd]. change (txt "';") with [39; 59]. change (txt ";") with [59]. change (txt "'") with [39]. repeat first [progress cbn [app] | rewrite <- app_assoc]. reflexivity. }
  destruct k1 as [|k k1]; cbn [app].
  - rewrite !join_more, B. cbn [flat_map]. rewrite app_nil_r, <- !app_assoc. reflexivity.
  - rewrite !join_more, !flat_map_app. cbn [flat_map]. rewrite app_nil_r.
    assert (C : forall v, conditions [(n, v)] = item_text (as_item (n, v))) by (intro v; reflexivity). rewrite !C, B, <- !app_assoc. reflexivity.
Qed.
(** Where a text of the key has a quotation mark and a semicolon, the statement
    ends there: the row is looked for by the columns up to this one, and this
    one by the beginning of its text; the rest of the text is run as SQL. *)
Theorem C134_key_refuted : forall rt tm want_db want_tb spare fs es1 es2 tail l1 l2 u t k1 n a x k2 c b,
  keyed_update rt tm want_db want_tb fs es1 es2 tail l1 l2 u t (k1 ++ (n, a ++ txt "';" ++ x) :: k2) c b ->
  Forall (fun k => ~ In 96 (fst k) /\ literal (snd k) = true) k1 -> ~ In 96 n -> literal a = true ->
  exists line, ParseRedoLogs rt tm want_db want_tb (map (fun f => Some (log_events f)) fs) spare = (l1 ++ line :: l2, Ok None)
    /\ read_update_first line = Some (t_db t, t_name t, [(c_name c, SStr b, [])], map (fun k => (fst k, SStr (snd k))) (k1 ++ [(n, a)]),
         x ++ txt "'" ++ flat_map (fun k => txt " and " ++ conditions [k]) k2 ++ txt ";").
Proof.
  intros rt tm want_db want_tb spare fs es1 es2 tail l1 l2 u t k1 n a x k2 c b HU HK Hn La. eexists. split; [exact (keyed_line _ _ _ _ spare _ _ _ _ _ _ _ _ _ _ _ HU)|].
  destruct HU as [single [space [page [names [p [_ [_ [_ [_ [_ [_ [_ [_ [_ [_ [_ [_ [_ [_ [_ [_ [_ [_ [_ [_ [Lb [Nd [Nt Nc]]]]]]]]]]]]]]]]]]]]]]]]]]]].
  rewrite undo_is_text. unfold update_text, read_update_first. rewrite strip_app. rewrite read_table_plain; [|assumption|assumption|cbn; lia]. rewrite strip_app.
  cbn [map fst snd shown_value join_and]. fold as_item. change (map (fun k : bytes * bytes => (fst k, SStr (snd k)))) with (map as_item). rewrite join_cut.
  set (rest := x ++ txt "'" ++ _). set (keys := k1 ++ [(n, a)]).
  match goal with |- context [read_set _ ?w] => set (whole := w) end.
  assert (Hw : (1 <= List.length whole)%nat) by (unfold whole; cbn; lia). destruct (List.length whole) as [|f] eqn:EN; [lia|].
  cbn [read_set]. rewrite EN. cbn [read_conj]. unfold whole at 1. rewrite (read_eq_item (c_name c, SStr b)) by (try (split; [exact Nc|exact Lb]); vm_compute; discriminate).
  assert (S1 : forall y, strip (txt " and ") (txt " where " ++ y) = None) by (intro; reflexivity). assert (S2 : forall y, strip (txt ",") (txt " where " ++ y) = None) by (intro; reflexivity).
  cbn [fst snd]. rewrite S1. cbv iota beta. rewrite S2. cbv iota beta. rewrite strip_app.
  destruct (map as_item keys) as [|i items] eqn:EK; [unfold keys in EK; destruct k1; discriminate EK|].
  rewrite read_conj_items.
  - rewrite strip_app. rewrite <- EK. reflexivity.
  - rewrite <- EK. unfold keys. rewrite map_app. apply Forall_app. split; [|constructor; [split; [exact Hn|exact La]|constructor]].
    apply Forall_map. eapply Forall_impl; [|exact HK]. intros k [A B]. split; assumption.
  - split; [reflexivity|vm_compute; discriminate].
  - rewrite app_length. pose proof (join_len (i :: items)). cbn [List.length] in *. lia.
Qed.
Print Assumptions C134_key_refuted.
(** d.t(id varchar(40) primary key, a varchar(40)) *)
Definition text_col (name : list Z) : Column := mkColumn name innodb_varchar field_varchar 1 40 VNil false false false 0.
Definition text_keyed : Table := mkTable (txt "d") (txt "t") [text_col (txt "id"); text_col (txt "a")] [(1, mkIndex 1 (txt "PRIMARY") 1 3 [mkField 0 (txt "id")])] 0 0.
Definition text_update_of (key b : list Z) : undo := mkUndo UNDO_UPDATE 0 false 3 40 0 77 99 [key] [(1, Some b)] [0; 5].
Definition key_file (key b : list Z) : log_file :=
  let p := enc_entry (ERecord true 0 5 (BUndo (enc_undo (text_update_of key b)))) ++ enc_entry EEnd in
  mkLogFile (lf_header sample_file) (lf_cp1 sample_file) (lf_unused sample_file) (lf_cp2 sample_file) [block_with (12 + len p) p; block_with 0 []].
Example C134_key_case rt :
  keyed_update rt [(40, text_keyed)] [] [] [key_file old_text (txt "y")] [] [EEnd] [] [] [] (text_update_of old_text (txt "y")) text_keyed ([] ++ (txt "id", txt "x" ++ txt "';" ++ txt "drop table t;-- ") :: []) (text_col (txt "a")) (txt "y")
  /\ ~ In 96 (txt "id") /\ literal (txt "x") = true
  /\ ParseRedoLogs rt [(40, text_keyed)] [] [] [Some (log_events (key_file old_text (txt "y")))] 0 = ([txt "update `d`.`t` set `a`='y' where `id`='x';drop table t;-- ';"], Ok None).
Proof.
  split; [|split; [vm_compute; lia|split; reflexivity]]. exists true, 0, 5, [txt "id"], 1. cbv zeta.
  assert (F : file_ok (key_file old_text (txt "y"))).
  { destruct sample_file_ok as [H1 [H2 [H3 [H4 [H5 [H6 H7]]]]]]. unfold file_ok, key_file. cbn [lf_header lf_cp1 lf_unused lf_cp2 lf_blocks].
    do 6 (split; [assumption|]). constructor; [apply block_check; reflexivity|]; constructor; [apply block_check; reflexivity|constructor]. }
  split; [constructor; [exact F|constructor]|]. split; [reflexivity|].
  split; [vm_compute; reflexivity|]. split; [reflexivity|]. split; [auto|]. split; [constructor|]. split; [apply ll_end, ll_nil|].
  split; [unfold word; lia|]. split; [unfold word; lia|]. split.
  { unfold undo_ok. cbn [text_update_of un_type un_cmpl un_no un_table un_info un_trx un_roll un_keys un_changes]. split; [cbn; unfold UNDO_INSERT, UNDO_UPDATE; tauto|].
    do 6 (split; [lia|]). split; [constructor; [reflexivity|constructor]|]. split; [reflexivity|].
    split; [|reflexivity]. constructor; [|constructor]. unfold field_ok; cbn; unfold zlen; cbn; lia. }
  split; [right; vm_compute; discriminate|]. split; [reflexivity|]. split; [reflexivity|]. split; [split; now left|]. split.
  { exists [], 1, (mkIndex 1 (txt "PRIMARY") 1 3 [mkField 0 (txt "id")]), []. repeat split; [constructor|]. left. split; reflexivity. }
  split. { eapply key_quiet; [apply cn_here; reflexivity|cbn; lia| |left; constructor|constructor]. reflexivity. }
  split; [reflexivity|]. split; [reflexivity|]. split; [cbn; lia|]. split; [left; reflexivity|]. split; [reflexivity|]. vm_compute. lia.
Qed.
