(** C112: recovered UPDATEs of tables whose key holds a part of a column. *)
From Coq Require Import ZifyBool.
From Verif Require Import GoBase Utils Ibdata Redo SpecInno SpecText SpecSql SpecRecord SpecRow SpecRedo SpecUndo SpecCmd SpecChars SpecInject SpecInjectRedo PBase PWire PValue PText PSql PRec PRedo PStep PUndo PLog PToolRedo PropValue PropSql PropRedo PropNull PropUniqueRedo PropInjectRedo PropInjectKey.
Local Open Scope list_scope.
Local Open Scope Z_scope.

(** A column of the key: its name, how many bytes of it are in the key, and the
    row's value *)
Record part := mkPart { pt_name : list Z; pt_bytes : nat; pt_value : list Z }.
(** What the index, and so the undo record, holds of it *)
Definition pt_held (k : part) : list Z := firstn (pt_bytes k) (pt_value k).
(** A log with an update of a row with such a key, of text columns *)
Definition part_update rt tm want_db want_tb (fs : list log_file) es1 es2 tail l1 l2 u t (ks : list part) (c : Column) (b : list Z) : Prop :=
  exists single space page p,
  let here := ERecord single space page (BUndo (enc_undo u)) in
  let rest := zlen (flat_map enc_entry es2) + zlen tail in
  Forall file_ok fs
  /\ flat_map (fun f => payloads (lf_blocks f)) fs = flat_map enc_entry (es1 ++ here :: es2) ++ tail
  /\ zlen (flat_map enc_entry (es1 ++ here :: es2) ++ tail) < 2 ^ 32 - 1 /\ zlen tail < 5
  /\ (forall k t, mget tm k = Some t -> want_db = [] \/ want_tb = [] \/ want_db = t_db t \/ want_tb <> t_name t)
  /\ log_lines rt tm want_db want_tb (zlen (enc_entry here) + rest) es1 l1 /\ log_lines rt tm want_db want_tb (zlen tail) es2 l2
  /\ word space /\ word page /\ undo_ok u /\ undo_room u rest
  /\ mget tm (un_table u) = Some t /\ un_type u = UNDO_UPDATE /\ requested want_db want_tb (t_db t) (t_name t)
  /\ key_names t (map pt_name ks) /\ un_keys u = map pt_held ks /\ ks <> []
  /\ Forall (fun k => (exists kc, column_named (pt_name k) (t_columns t) kc /\ 0 <= c_len kc < 2 ^ 63 /\ text_column kc) /\ ~ In 96 (pt_name k) /\ literal (pt_held k) = true) ks
  /\ un_changes u = [(p, Some b)] /\ nth_error (t_columns t) (Z.to_nat p) = Some c /\ 0 <= c_len c < 2 ^ 63
  /\ text_column c /\ literal b = true
  /\ ~ In 96 (t_db t) /\ ~ In 96 (t_name t) /\ ~ In 96 (c_name c).
Lemma part_keys rt t ks :
  Forall (fun k => (exists kc, column_named (pt_name k) (t_columns t) kc /\ 0 <= c_len kc < 2 ^ 63 /\ text_column kc) /\ ~ In 96 (pt_name k) /\ literal (pt_held k) = true) ks ->
  key_shown rt t (map pt_name ks) (map pt_held ks) (map (fun k => (pt_name k, pt_held k)) ks) [].
Proof.
  induction 1 as [|k ks [[kc [N [L T]]] _] _ IH]; [constructor|]. cbn [map]. eapply key_quiet; [exact N|exact L| |left; constructor|exact IH].
  rewrite <- (app_nil_r (pt_held k)) at 1. apply C19_text_exact. unfold text_column in T. tauto.
Qed.
(** The row is looked for by the part: the condition is the row's key exactly
    if the key holds all of each column. *)
Theorem C112_update_refuted : forall rt tm want_db want_tb spare fs es1 es2 tail l1 l2 u t ks c b,
  part_update rt tm want_db want_tb fs es1 es2 tail l1 l2 u t ks c b ->
  exists line conds, ParseRedoLogs rt tm want_db want_tb (map (fun f => Some (log_events f)) fs) spare = (l1 ++ line :: l2, Ok None)
    /\ read_update line = Some (t_db t, t_name t, [(c_name c, SStr b, [])], conds)
    /\ conds = map (fun k => (pt_name k, SStr (firstn (pt_bytes k) (pt_value k)))) ks
    /\ (conds = map (fun k => (pt_name k, SStr (pt_value k))) ks <-> Forall (fun k => (List.length (pt_value k) <= pt_bytes k)%nat) ks).
Proof.
  intros rt tm want_db want_tb spare fs es1 es2 tail l1 l2 u t ks c b [single [space [page [p H]]]]. cbv zeta in H.
  destruct H as (Hf & E & Hl & Ht & HF & H1 & H2 & Hs & Hp & Hu & H5 & Hm & Hy & Hr & Hk & HK & Hne & HP & HC & Hn & Hcl & HT & Lb & Nd & Nt & Nc).
  assert (HU : keyed_update rt tm want_db want_tb fs es1 es2 tail l1 l2 u t (map (fun k => (pt_name k, pt_held k)) ks) c b).
  { exists single, space, page, (map pt_name ks), p. cbv zeta. repeat (split; [assumption|]). split; [rewrite HK; now apply part_keys|]. repeat (split; [assumption|]). assumption. }
  exists (undo_statement (t_db t) (t_name t) [(c_name c, Some b)] (map (fun k => (pt_name k, pt_held k)) ks)), (map (fun k => (pt_name k, SStr (pt_held k))) ks).
  split; [exact (keyed_line _ _ _ _ spare _ _ _ _ _ _ _ _ _ _ _ HU)|]. split; [|split; [reflexivity|]].
  - rewrite undo_is_text, map_map. cbn [map fst snd shown_value]. destruct ks as [|k ks]; [contradiction|]. cbn [map]. apply update_reads; [exact Nd|exact Nt|constructor; [split; [exact Nc|exact Lb]|constructor]|].
    change (Forall clean_item (map (fun k => (pt_name k, SStr (pt_held k))) (k :: ks))). apply Forall_map. eapply Forall_impl; [|exact HP]. intros x [_ [A B]]. split; [exact A|exact B].
  - clear. induction ks as [|k ks IH]; cbn [map]; [split; [constructor|reflexivity]|]. split.
    + intro H. injection H as H1 H2. constructor; [|now apply IH]. rewrite <- H1. unfold pt_held. rewrite firstn_length. lia.
    + intro H. inversion H as [|? ? A B]; subst. f_equal; [|now apply IH]. unfold pt_held. now rewrite firstn_all2.
Qed.
Print Assumptions C112_update_refuted.
(** d.t(id varchar(40), a varchar(40), primary key (id(3))): the row of
    'abcdef' is looked for as 'abc' *)
Example C112_update_case rt : let ks := [mkPart (txt "id") 3 (txt "abcdef")] in
  part_update rt [(40, text_keyed)] [] [] [key_file (txt "abc") (txt "y")] [] [EEnd] [] [] [] (text_update_of (txt "abc") (txt "y")) text_keyed ks (text_col (txt "a")) (txt "y")
  /\ ~ Forall (fun k => (List.length (pt_value k) <= pt_bytes k)%nat) ks
  /\ ParseRedoLogs rt [(40, text_keyed)] [] [] [Some (log_events (key_file (txt "abc") (txt "y")))] 0 = ([txt "update `d`.`t` set `a`='y' where `id`='abc';"], Ok None).
Proof.
  intro ks. split; [|split; [intro H; inversion H as [|? ? A _]; cbn in A; lia|reflexivity]]. exists true, 0, 5, 1. cbv zeta.
  assert (F : file_ok (key_file (txt "abc") (txt "y"))).
  { destruct sample_file_ok as [H1 [H2 [H3 [H4 [H5 [H6 H7]]]]]]. unfold file_ok, key_file. cbn [lf_header lf_cp1 lf_unused lf_cp2 lf_blocks].
    do 6 (split; [assumption|]). constructor; [apply block_check; reflexivity|]; constructor; [apply block_check; reflexivity|constructor]. }
  split; [constructor; [exact F|constructor]|]. split; [reflexivity|].
  split; [vm_compute; reflexivity|]. split; [reflexivity|]. split; [auto|]. split; [constructor|]. split; [apply ll_end, ll_nil|].
  split; [unfold word; lia|]. split; [unfold word; lia|]. split.
  { unfold undo_ok. cbn [text_update_of un_type un_cmpl un_no un_table un_info un_trx un_roll un_keys un_changes]. split; [cbn; unfold UNDO_INSERT, UNDO_UPDATE; tauto|].
    do 6 (split; [lia|]). split; [constructor; [reflexivity|constructor]|]. split; [reflexivity|].
    split; [|reflexivity]. constructor; [|constructor]. unfold field_ok; cbn; unfold zlen; cbn; lia. }
  split; [right; vm_compute; discriminate|]. split; [reflexivity|]. split; [reflexivity|]. split; [split; now left|]. split.
  { exists [], 1, (mkIndex 1 (txt "PRIMARY") 1 3 [mkField 0 (txt "id")]), []. repeat split; [constructor|]. left. split; reflexivity. }
  split; [reflexivity|]. split; [discriminate|]. split.
  { constructor; [|constructor]. split; [exists (text_col (txt "id")); split; [apply cn_here; reflexivity|split; [cbn; lia|left; reflexivity]]|]. split; [vm_compute; lia|reflexivity]. }
  split; [reflexivity|]. split; [reflexivity|]. split; [cbn; lia|]. split; [left; reflexivity|]. split; [reflexivity|]. vm_compute. lia.
Qed.
