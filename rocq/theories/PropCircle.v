(** Properties C105 and C106: the order of the log blocks and their checksums. *)
From Verif Require Import GoBase Utils Ibdata Redo Cmd SpecInno SpecText SpecSql SpecCmd SpecRecord SpecRow SpecUndo SpecRedo PBase PLog PropRedo PropNull.
From Coq Require Import Lia ZifyBool Permutation.
Local Open Scope Z_scope.
Local Open Scope list_scope.

Lemma payloads_full bs : Forall (fun b => block_len b <> 0) bs -> payloads bs = flat_map block_payload bs.
Proof. induction 1 as [|b bs H _ IH]; [reflexivity|]. cbn [payloads flat_map]. replace (block_len b =? 0) with false by lia. now rewrite IH. Qed.
Lemma files_full fs : Forall (fun b => block_len b <> 0) (file_blocks fs) -> flat_map (fun f => payloads (lf_blocks f)) fs = flat_map block_payload (file_blocks fs).
Proof.
  unfold file_blocks. induction fs as [|f fs IH]; intro H; [reflexivity|]. cbn [flat_map] in *. apply Forall_app in H as [H1 H2]. rewrite flat_map_app, payloads_full by exact H1. now rewrite IH.
Qed.
Lemma order_unique a : in_order a -> forall b, in_order b -> Permutation a b -> a = b.
Proof.
  induction 1 as [|x a Hx Ha IH]; intros b Hb HP; [now apply Permutation_nil in HP|]. destruct Hb as [|y b Hy Hb]; [apply Permutation_sym, Permutation_nil in HP; discriminate|].
  assert (E : x = y).
  { assert (I1 : In x (y :: b)) by (apply (Permutation_in _ HP); now left). assert (I2 : In y (x :: a)) by (apply (Permutation_in _ (Permutation_sym HP)); now left).
    destruct I1 as [I1|I1]; [now symmetry|]. destruct I2 as [I2|I2]; [exact I2|]. rewrite Forall_forall in Hx, Hy. specialize (Hx _ I2). specialize (Hy _ I1). cbv beta in *. lia. }
  subst y. f_equal. apply IH; [exact Hb|]. now apply Permutation_cons_inv in HP.
Qed.

(** * C105 *)
(** Full statement: whatever the place of the blocks in the files, what is
    scanned are the payloads of the blocks in the order they were written.
    Proved when the files hold the blocks in that order.  Missing (false): a
    log that has come round. *)
Theorem C105_order_partial : forall fs written, Forall file_ok fs -> Forall (fun b => block_len b <> 0) (file_blocks fs) ->
  Permutation written (file_blocks fs) -> in_order written -> in_order (file_blocks fs) ->
  redoFiles (map (fun f => Some (log_events f)) fs) = Ok (inl (flat_map block_payload written)).
Proof.
  intros fs w Hf Hn HP H1 H2. rewrite files_read by exact Hf. rewrite files_full by exact Hn. now rewrite (order_unique w H1 _ H2 HP).
Qed.
Print Assumptions C105_order_partial.
(** Exactly: a log that has come round - its newer blocks come first in the
    files, the older ones after them - is scanned newer part first; that is not
    what was written when the two parts begin with different bytes. *)
Theorem C105_order_refuted : forall fs older newer, Forall file_ok fs -> Forall (fun b => block_len b <> 0) (file_blocks fs) ->
  file_blocks fs = newer ++ older -> in_order (older ++ newer) ->
  let scanned := flat_map block_payload newer ++ flat_map block_payload older in
  redoFiles (map (fun f => Some (log_events f)) fs) = Ok (inl scanned)
  /\ (hd_error (flat_map block_payload newer) <> hd_error (flat_map block_payload older) ->
      flat_map block_payload newer <> [] -> flat_map block_payload older <> [] -> scanned <> flat_map block_payload (older ++ newer))
  /\ (older <> [] -> newer <> [] -> ~ in_order (file_blocks fs)).
Proof.
  intros fs older newer Hf Hn E Ho scanned. split; [|split].
  - rewrite files_read by exact Hf. rewrite files_full by exact Hn. now rewrite E, flat_map_app.
  - unfold scanned. rewrite flat_map_app. destruct (flat_map block_payload newer); [congruence|]. destruct (flat_map block_payload older); cbn; congruence.
  - intros N1 N2 X. rewrite E in X. destruct older as [|o older]; [congruence|]. destruct newer as [|n newer]; [congruence|]. cbn [app] in *.
    inversion X as [|? ? X1 _]; subst. inversion Ho as [|? ? X2 _]; subst. rewrite Forall_forall in X1, X2.
    assert (A : In o (newer ++ o :: older)) by (apply in_or_app; right; now left). assert (B : In n (older ++ n :: newer)) by (apply in_or_app; right; now left).
    apply X1 in A. apply X2 in B. cbv beta in *. lia.
Qed.
Print Assumptions C105_order_refuted.
(** The statements of such a log, when its records end with the blocks: the
    newer updates come first, so that running them in the order printed does
    not end with the oldest values. *)
Theorem C105_statements_refuted : forall rt tm want_db want_tb spare fs older newer es_old es_new l_old l_new,
  Forall file_ok fs -> Forall (fun b => block_len b <> 0) (file_blocks fs) -> file_blocks fs = newer ++ older -> in_order (older ++ newer) ->
  flat_map block_payload older = flat_map enc_entry es_old -> flat_map block_payload newer = flat_map enc_entry es_new ->
  len (flat_map block_payload (older ++ newer)) < 2 ^ 32 - 1 ->
  (forall k t, mget tm k = Some t -> want_db = [] \/ want_tb = [] \/ want_db = t_db t \/ want_tb <> t_name t) ->
  log_lines rt tm want_db want_tb 0 es_old l_old -> log_lines rt tm want_db want_tb (zlen (flat_map enc_entry es_old)) es_new l_new ->
  ParseRedoLogs rt tm want_db want_tb (map (fun f => Some (log_events f)) fs) spare = (l_new ++ l_old, Ok None).
Proof.
  intros rt tm db tb spare fs older newer eo en lo ln Hf Hn E Ho Eo En Hl HF H1 H2.
  apply (C68_log_partial rt tm db tb spare fs (en ++ eo) []); try assumption; try reflexivity.
  - rewrite files_full by exact Hn. rewrite E, !flat_map_app, Eo, En, app_nil_r. reflexivity.
  - rewrite app_nil_r. rewrite flat_map_app in Hl |- *. rewrite Eo, En in Hl. rewrite len_app in *. lia.
  - apply log_lines_app; [exact H1|]. change (len (@nil Z)) with 0. rewrite Z.add_0_r. exact H2.
Qed.
Print Assumptions C105_statements_refuted.

(** * C106 *)
Definition same_block (b b' : list Z) : Prop := block_len b = block_len b' /\ block_payload b = block_payload b'.
Definition same_file (f f' : log_file) : Prop := Forall2 same_block (lf_blocks f) (lf_blocks f').
Lemma same_payloads bs bs' : Forall2 same_block bs bs' -> payloads bs = payloads bs'.
Proof. induction 1 as [|b b' bs bs' [H1 H2] _ IH]; [reflexivity|]. cbn [payloads]. now rewrite H1, H2, IH. Qed.
(** Nothing in a log file but the lengths of its blocks and the bytes they use
    makes a difference: not the file's header (as long as the creator's name in
    it ends), not the checkpoints, not the numbers of the blocks, not the
    checksums. *)
Theorem C106_ignored_refuted : forall rt tm want_db want_tb spare fs fs', Forall file_ok fs -> Forall file_ok fs' -> Forall2 same_file fs fs' ->
  ParseRedoLogs rt tm want_db want_tb (map (fun f => Some (log_events f)) fs) spare
  = ParseRedoLogs rt tm want_db want_tb (map (fun f => Some (log_events f)) fs') spare.
Proof.
  intros rt tm db tb spare fs fs' H1 H2 H. rewrite !parse_files by assumption. f_equal. clear H1 H2.
  induction H as [|f f' fs fs' H _ IH]; [reflexivity|]. cbn [flat_map]. now rewrite (same_payloads _ _ H), IH.
Qed.
Print Assumptions C106_ignored_refuted.
Definition spoil (b : list Z) : list Z := firstn 508 b ++ be 4 ((be_val (skipn 508 b) + 1) mod 2 ^ 32).
Definition spoil_file (f : log_file) : log_file := mkLogFile (lf_header f) (lf_cp1 f) (lf_unused f) (lf_cp2 f) (map spoil (lf_blocks f)).
Lemma spoil_same b : log_block b -> log_block (spoil b) /\ same_block b (spoil b).
Proof.
  intros [H1 [H2 H3]]. change (@zlen) with (@len) in *. assert (L : List.length (firstn 508 b) = 508%nat) by (rewrite firstn_length; unfold len in H1; lia).
  assert (EL : block_len (spoil b) = block_len b).
  { unfold block_len, spoil. f_equal. rewrite skipn_app, L. change (4 - 508)%nat with 0%nat. rewrite firstn_app, skipn_length, L. change (2 - (508 - 4))%nat with 0%nat. rewrite firstn_O, app_nil_r.
    rewrite skipn_firstn_comm. rewrite firstn_firstn. reflexivity. }
  assert (EP : block_payload (spoil b) = block_payload b).
  { unfold block_payload. rewrite EL. cbv zeta. set (n := if block_len b =? 512 then 508 else block_len b). assert (Hn : (Z.to_nat (n - 12) <= 496)%nat) by (unfold n; destruct (block_len b =? 512) eqn:X; lia).
    unfold spoil. rewrite skipn_app, L. change (12 - 508)%nat with 0%nat. rewrite firstn_app, skipn_length, L. replace (Z.to_nat (n - 12) - (508 - 12))%nat with 0%nat by lia. rewrite firstn_O, app_nil_r.
    rewrite skipn_firstn_comm, firstn_firstn. f_equal. lia. }
  split; [|split; congruence]. split; [|split].
  - change (@zlen) with (@len). unfold spoil. rewrite len_app. unfold len at 1. rewrite L. unfold len. cbn [be List.length app]. reflexivity.
  - unfold spoil. apply Forall_app. split; [now apply all_bytes_firstn|]. apply be_bytes.
  - rewrite EL. exact H3.
Qed.
(** False, for every checksum: give every block of a log a wrong one, and the
    log is read as before. *)
Theorem C106_checksum_refuted : forall checksum fs, (forall d, 0 <= checksum d < 2 ^ 32) -> Forall file_ok fs -> Forall (sound_block checksum) (file_blocks fs) ->
  Forall file_ok (map spoil_file fs) /\ Forall (fun b => ~ sound_block checksum b) (file_blocks (map spoil_file fs))
  /\ forall rt tm want_db want_tb spare, ParseRedoLogs rt tm want_db want_tb (map (fun f => Some (log_events f)) (map spoil_file fs)) spare
     = ParseRedoLogs rt tm want_db want_tb (map (fun f => Some (log_events f)) fs) spare.
Proof.
  intros checksum fs Hc Hf Hs.
  assert (H1 : Forall file_ok (map spoil_file fs)).
  { apply Forall_forall. intros f' Hin. apply in_map_iff in Hin as [f [<- Hin]]. rewrite Forall_forall in Hf. destruct (Hf _ Hin) as [A [B [C [D [E [F G]]]]]].
    unfold file_ok, spoil_file. cbn [lf_header lf_cp1 lf_unused lf_cp2 lf_blocks]. do 6 (split; [assumption|]). apply Forall_forall. intros b' Hb. apply in_map_iff in Hb as [b [<- Hb]].
    rewrite Forall_forall in G. now apply spoil_same, G. }
  split; [exact H1|]. split.
  - apply Forall_forall. intros b' Hb. unfold file_blocks in *. apply in_flat_map in Hb as [f' [Hf' Hb]]. apply in_map_iff in Hf' as [f [<- Hf']]. cbn [spoil_file lf_blocks] in Hb. apply in_map_iff in Hb as [b [<- Hb]].
    assert (Hk : sound_block checksum b) by (rewrite Forall_forall in Hs; apply Hs, in_flat_map; now exists f).
    assert (Hl : log_block b). { rewrite Forall_forall in Hf. destruct (Hf _ Hf') as [_ [_ [_ [_ [_ [_ G]]]]]]. rewrite Forall_forall in G. now apply G. }
    destruct Hl as [L _]. assert (LL : List.length (firstn 508 b) = 508%nat) by (rewrite firstn_length; unfold zlen in L; lia).
    unfold sound_block in *. unfold spoil. rewrite skipn_app, firstn_app, LL. change (508 - 508)%nat with 0%nat. rewrite firstn_O, app_nil_r, firstn_firstn. change (Nat.min 508 508) with 508%nat.
    rewrite skipn_all2 by lia. cbn [app]. rewrite Hk. specialize (Hc (firstn 508 b)). set (c := checksum (firstn 508 b)) in *. change (skipn 0 (be 4 ((c + 1) mod 2 ^ 32))) with (be 4 ((c + 1) mod 2 ^ 32)).
    rewrite be_val_be_small by (change (256 ^ Z.of_nat 4) with (2 ^ 32); apply Z.mod_pos_bound; reflexivity).
    destruct (Z.eq_dec c (2 ^ 32 - 1)) as [X|X]; [rewrite X; vm_compute; discriminate|]. rewrite Z.mod_small by lia. lia.
  - intros. apply C106_ignored_refuted; [exact H1|exact Hf|]. clear Hs H1. induction Hf as [|f fs H _ IH]; constructor; [|exact IH].
    unfold same_file, spoil_file. cbn [lf_blocks]. destruct H as [_ [_ [_ [_ [_ [_ G]]]]]]. induction G as [|b bs Hb _ IHb]; constructor; [|exact IHb]. destruct (spoil_same b Hb) as [_ [X Y]]. split; congruence.
Qed.
Print Assumptions C106_checksum_refuted.
(** Full statement: what is scanned are the payloads of the blocks up to the
    first that is empty or damaged.  Proved when none is damaged.  Missing
    (false): the others. *)
Theorem C106_checksum_partial : forall (sound : list Z -> bool) fs, Forall file_ok fs -> Forall (fun b => sound b = true) (file_blocks fs) ->
  redoFiles (map (fun f => Some (log_events f)) fs) = Ok (inl (flat_map (fun f => sound_payloads sound (lf_blocks f)) fs)).
Proof.
  intros sound fs Hf Hs. rewrite files_read by exact Hf. do 2 f_equal. clear Hf. unfold file_blocks in Hs.
  induction fs as [|f fs IH]; [reflexivity|]. cbn [flat_map] in *. apply Forall_app in Hs as [H1 H2]. rewrite (IH H2). f_equal. clear - H1.
  induction (lf_blocks f) as [|b bs IH]; [reflexivity|]. inversion H1 as [|? ? X Y]; subst. cbn [payloads sound_payloads]. rewrite X, orb_false_r. now rewrite IH.
Qed.
Print Assumptions C106_checksum_partial.

(** A log that has come round: block 9, with the newer update, lies before block
    8, with the older one. *)
Definition update_to (v : Z) : entry := ERecord false 0 5 (BUndo (enc_undo (sample_undo UNDO_UPDATE [(1, Some (store_uint 4 v))]))).
Definition numbered (n : Z) (es : list entry) : bytes := let p := flat_map enc_entry es in be 4 n ++ skipn 4 (block_with (12 + len p) p).
Definition round_file : log_file := mkLogFile (lf_header sample_file) (lf_cp1 sample_file) (lf_unused sample_file) (lf_cp2 sample_file)
  [numbered 9 [update_to 400; EEnd]; numbered 8 [update_to 300; EEnd; EEnd; EEnd; EEnd; EEnd]].
Example C105_case rt : file_ok round_file /\ in_order [numbered 8 [update_to 300; EEnd; EEnd; EEnd; EEnd; EEnd]; numbered 9 [update_to 400; EEnd]]
  /\ Forall (fun b => block_len b <> 0) (file_blocks [round_file])
  /\ ParseRedoLogs rt (sample_tm (txt "b")) [] [] [Some (log_events round_file)] 0
     = ([txt "update `b`.`t` set `a`='400' where `id`='7';"; txt "update `b`.`t` set `a`='300' where `id`='7';"], Ok None).
Proof.
  split; [|split; [|split]].
  - destruct sample_file_ok as [H1 [H2 [H3 [H4 [H5 [H6 H7]]]]]]. unfold file_ok, round_file. cbn [lf_header lf_cp1 lf_unused lf_cp2 lf_blocks].
    do 6 (split; [assumption|]). constructor; [apply block_check; reflexivity|]. constructor; [apply block_check; reflexivity|constructor].
  - constructor; [constructor; [vm_compute; reflexivity|constructor]|]. constructor; [constructor|constructor].
  - repeat constructor; vm_compute; discriminate.
  - reflexivity.
Qed.
(** The sample file with wrong checksums, for the checksum that is 0 for every
    block of it *)
Example C106_case : Forall (sound_block (fun _ => 0)) (file_blocks [sample_file]) /\ file_ok sample_file
  /\ Forall (fun b => block_len b = 512 \/ skipn 508 (spoil b) = [0; 0; 0; 1]) (lf_blocks sample_file).
Proof.
  split; [|split; [exact sample_file_ok|]]; repeat constructor; vm_compute; try reflexivity; now right.
Qed.
