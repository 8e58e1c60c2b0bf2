(** Lemmas about Redo.v: records are stepped over exactly. *)
From Coq Require Import ZifyBool.
From Verif Require Import GoBase Utils Ibdata Redo SpecInno SpecText SpecSql SpecRecord SpecRedo PBase PWire PPage.
Local Open Scope list_scope.
Ltac Zify.zify_post_hook ::= Z.div_mod_to_equations.

Lemma zl {A} (l : list A) : zlen l = len l.
Proof. reflexivity. Qed.

(** Running the cursor monad *)
Lemma pb {A B} (m : P A) (k : A -> P B) s s' a : m s = ([], s', Ok a) -> pbind m k s = k a s'.
Proof. unfold pbind. intros ->. destruct (k a s') as [[o s2] r]. reflexivity. Qed.
Lemma pbo {A B} (m : P A) (k : A -> P B) s s' a o : m s = (o, s', Ok a) ->
  pbind m k s = (o ++ fst (fst (k a s')), snd (fst (k a s')), snd (k a s')).
Proof. unfold pbind. intros ->. destruct (k a s') as [[o' s2] r]. reflexivity. Qed.

Lemma trip {A B} (o : A) (s s' : Z) (r : B) : s = s' -> (o, s, r) = (o, s', r).
Proof. now intros ->. Qed.

Section At.
Variable data : bytes.
Hypothesis Hb : all_bytes data.
Hypothesis Hs : len data < 2 ^ 62.

(** The cursor s stands before d. *)
Definition At (s : Z) (d : bytes) : Prop := exists pre, data = pre ++ d /\ s = len pre.
Lemma At_app s x d : At s (x ++ d) -> At (s + len x) d.
Proof. intros [pre [E ->]]. exists (pre ++ x). rewrite <- app_assoc. split; [exact E|]. now rewrite len_app. Qed.
Lemma At_skip s x d n : At s (x ++ d) -> n = len x -> At (s + n) d.
Proof. intros H ->. now apply At_app. Qed.
Lemma At_bytes s d : At s d -> all_bytes d.
Proof. intros [pre [E _]]. rewrite E in Hb. apply all_bytes_app in Hb. tauto. Qed.
Lemma At_range s d : At s d -> 0 <= s /\ s + len d = len data.
Proof. intros [pre [E ->]]. rewrite E, len_app. pose proof (len_nonneg pre). lia. Qed.
Lemma At_slice s d : At s d -> slice_from data s = Ok d.
Proof. intros [pre [E ->]]. rewrite E. apply slice_from_app. Qed.

Lemma r_readat {A} (rd : bytes -> res A) s d a : At s d -> rd d = Ok a -> readat rd data s = ([], s, Ok a).
Proof.
  intros H E. unfold readat. erewrite pb by reflexivity. cbv beta. unfold plift. rewrite (At_slice s d H). cbn [bind]. now rewrite E.
Qed.
Lemma r_read1 s n d : At s (be 1 n ++ d) -> 0 <= n < 2 ^ 8 -> readat MatchReadFrom1 data s = ([], s, Ok n).
Proof. intros H Hn. eapply r_readat; [exact H|]. now apply mrf1_be. Qed.
Lemma r_read2 s n d : At s (be 2 n ++ d) -> 0 <= n < 2 ^ 16 -> readat MatchReadFrom2 data s = ([], s, Ok n).
Proof. intros H Hn. eapply r_readat; [exact H|]. now apply mrf2_be. Qed.
Lemma r_read4 s n d : At s (be 4 n ++ d) -> 0 <= n < 2 ^ 32 -> readat MatchReadFrom4 data s = ([], s, Ok n).
Proof. intros H Hn. eapply r_readat; [exact H|]. now apply mrf4_be. Qed.
Lemma r_read7 s n d : At s (be 7 n ++ d) -> 0 <= n < 2 ^ 56 -> readat MatchReadFrom7 data s = ([], s, Ok n).
Proof. intros H Hn. eapply r_readat; [exact H|]. now apply mrf7_be. Qed.
Lemma r_byte s n d : At s (be 1 n ++ d) -> 0 <= n < 2 ^ 8 -> readat (fun d => index d 0) data s = ([], s, Ok n).
Proof. intros H Hn. eapply r_readat; [exact H|]. rewrite be1_cons, Z.mod_small by lia. apply index_0. Qed.
Lemma r_parse s n d : At s (enc_compressed n ++ d) -> 0 <= n < 2 ^ 32 ->
  MatchParseCompressed data s = Ok (n, len (enc_compressed n), None).
Proof. intros [pre [E ->]] Hn. subst data. apply C01_lemma; [exact Hn|lia]. Qed.
Lemma r_comp s n d : At s (enc_compressed n ++ d) -> 0 <= n < 2 ^ 32 ->
  compressed_at data s = ([], s, Ok (n, len (enc_compressed n), None)).
Proof. intros H Hn. unfold compressed_at. erewrite pb by reflexivity. cbv beta. unfold plift. now rewrite (r_parse s n d H Hn). Qed.
Lemma r_advance s d n : At s d -> 0 <= n < 2 ^ 62 -> advance n s = ([], s + n, Ok tt).
Proof. intros H Hn. apply At_range in H. pose proof (len_nonneg d). unfold advance. rewrite u64_id by lia. reflexivity. Qed.
Lemma r_ull s n d : At s (enc_u64_compressed n ++ d) -> 0 <= n < 2 ^ 64 -> high_size n <= len d ->
  exists v, MatchUllReadComPressed data s = ([], s + len (enc_u64_compressed n), Ok v).
Proof.
  intros H Hn Hd. pose proof (At_bytes s _ H) as B. apply all_bytes_app in B. destruct B as [_ B].
  destruct H as [pre [E ->]]. subst data. eexists. apply ull_read_room; [exact Hn|exact Hd|exact B|lia].
Qed.

(** The encodings' lengths *)
Lemma r_ull_short s n d : At s (enc_u64_compressed n ++ d) -> 0 <= n < 2 ^ 64 -> len d < high_size n ->
  MatchUllReadComPressed data s = ([], s + high_size n, Panic).
Proof.
  intros H Hn Hd. pose proof (At_bytes s _ H) as B. apply all_bytes_app in B. destruct B as [_ B].
  destruct H as [pre [E ->]]. subst data. apply ull_short; [exact Hn|exact Hd|exact B|lia].
Qed.
Lemma u64_len n : len (enc_u64_compressed n) = MatchGetCompressedSize (n / 2 ^ 32) + 4.
Proof. unfold enc_u64_compressed. now rewrite len_app, len_be, len_enc_compressed. Qed.
Lemma comp_len n : 1 <= len (enc_compressed n) <= 5.
Proof. rewrite len_enc_compressed. apply size_range. Qed.

Lemma high_range n : 1 <= high_size n <= 5.
Proof. unfold high_size. change (@zlen) with (@len). apply comp_len. Qed.

(** * Index descriptions *)
Lemma index_loop lens s d i fuel n : At s (flat_map (be 2) lens ++ d) -> n = i + len lens -> (List.length lens < fuel)%nat ->
  ParseIndex_loop fuel data i n s = Ok (s + 2 * len lens).
Proof.
  revert s i fuel. induction lens as [|l lens IH]; intros s i fuel H Hn Hf; (destruct fuel as [|f]; [cbn [List.length] in Hf; lia|]); cbn [ParseIndex_loop].
  - rewrite len_nil in *. destruct (Z.ltb_spec i n); [lia|]. f_equal. lia.
  - rewrite len_cons in *. pose proof (len_nonneg lens). destruct (Z.ltb_spec i n); [|lia]. cbn [flat_map] in H. rewrite <- app_assoc in H.
    rewrite (At_slice s _ H). cbn [bind]. rewrite (mrf2_app (be 2 l)) by (apply be_bytes || apply be_length). cbn [bind].
    pose proof (At_range s _ H) as R. rewrite !len_app, len_be in R. pose proof (len_nonneg (flat_map (be 2) lens)). pose proof (len_nonneg d).
    rewrite u64_id by lia. rewrite IH; [f_equal; lia| |lia|cbn [List.length] in Hf; lia].
    eapply At_skip; [exact H|]. now rewrite len_be.
Qed.
Lemma len_lens lens : len (flat_map (be 2) lens) = 2 * len lens.
Proof. induction lens as [|l lens IH]; [reflexivity|]. cbn [flat_map]. rewrite len_app, len_be, len_cons, IH. lia. Qed.
Lemma len_desc d : len (enc_desc d) = 4 + 2 * len (de_lens d).
Proof. unfold enc_desc. rewrite !len_app, !len_be, len_lens. lia. Qed.
Lemma r_index od s d : At s (enc_opt od ++ d) -> opt_ok od ->
  index_at (match od with None => false | Some _ => true end) data s = ([], s + len (enc_opt od), Ok None).
Proof.
  intros H Hok. unfold index_at. erewrite pb by reflexivity. cbv beta. pose proof (At_range s _ H) as R. pose proof (len_nonneg d).
  rewrite len_app in R. destruct od as [dd|]; cbn [enc_opt] in *.
  - rewrite len_desc in *. destruct Hok as [H1 H2]. rewrite zl in H1. pose proof (len_nonneg (de_lens dd)).
    assert (E : ParseIndex true data s = Ok (s + (4 + 2 * len (de_lens dd)), None)).
    { unfold ParseIndex. rewrite (u64_id (s + 4)) by lia. destruct (Z.ltb_spec (len data) (s + 4)); [lia|].
      unfold enc_desc in H. rewrite zl in H. rewrite <- !app_assoc in H. rewrite (At_slice s _ H). cbn [bind]. rewrite mrf2_be by lia. cbn [bind].
      rewrite (u64_id (s + 2)) by lia. apply At_app in H. rewrite len_be in H. change (Z.of_nat 2) with 2 in H. rewrite (At_slice _ _ H). cbn [bind].
      rewrite mrf2_be by lia. cbn [bind]. rewrite (u64_id (s + 2 + 2)) by lia. rewrite u64_id by lia.
      destruct (Z.ltb_spec (len data) (s + 2 + 2 + len (de_lens dd) * 2)); [lia|].
      apply At_app in H. rewrite len_be in H. change (Z.of_nat 2) with 2 in H.
      rewrite (index_loop (de_lens dd) _ d); [cbn [bind]; do 2 f_equal; lia|exact H|lia|].
      unfold len in *. lia. }
    erewrite pb by (unfold plift; rewrite E; reflexivity). reflexivity.
  - rewrite len_nil. replace (s + 0) with s by lia. reflexivity.
Qed.

(** * Inserted records *)
Lemma len_insertion_pos i : 1 <= len (enc_insertion i).
Proof.
  unfold enc_insertion. destruct (in_extra i) as [[[a b] c]|]; rewrite !len_app; pose proof (comp_len (2 * zlen (in_bytes i))); pose proof (comp_len (2 * zlen (in_bytes i) + 1));
  pose proof (len_nonneg (in_bytes i)); [|lia]. pose proof (comp_len b). pose proof (comp_len c). rewrite len_be. lia.
Qed.
Lemma wb {A B} (m : W A) (k : A -> W B) a : m = ([], Ok a) -> wbind m k = k a.
Proof. unfold wbind. intros ->. destruct (k a) as [o r]. reflexivity. Qed.
Lemma insertion_run i s d : At s (enc_insertion i ++ d) -> insertion_ok i ->
  ParseInsertRecord true data s = ([], Ok (s + len (enc_insertion i), None)).
Proof.
  intros H [H1 H2]. rewrite zl in H1. pose proof (At_range s _ H) as R. pose proof (len_nonneg d). pose proof (len_nonneg (in_bytes i)) as Hi.
  unfold ParseInsertRecord. cbn [wlift]. rewrite (wb _ _ s) by reflexivity. unfold enc_insertion in *. change (@zlen) with (@len) in *.
  destruct (in_extra i) as [[[info origin] mismatch]|]; rewrite <- !app_assoc in H.
  - destruct H2 as [H2 [H3 H4]].
    rewrite (wb _ _ (2 * len (in_bytes i) + 1, len (enc_compressed (2 * len (in_bytes i) + 1)), None)) by (unfold wlift; erewrite r_parse by (exact H || lia); reflexivity).
    pose proof (comp_len (2 * len (in_bytes i) + 1)) as L1. pose proof (comp_len origin) as L2. pose proof (comp_len mismatch) as L3.
    cbv zeta. rewrite !len_app, len_be in *.
    rewrite (u64_id (s + len (enc_compressed (2 * len (in_bytes i) + 1)))) by lia. apply At_app in H.
    set (s1 := s + len (enc_compressed (2 * len (in_bytes i) + 1))) in *.
    destruct (Z.ltb_spec (len data) s1); [lia|]. replace (Z.land (2 * len (in_bytes i) + 1) 1) with 1.
    2:{ symmetry. change 1 with (2 ^ 1 - 1) at 2. rewrite land_ones by lia. change (2 ^ 1) with 2. lia. }
    cbn [Z.eqb].
    rewrite (wb (_ <-w wlift (slice_from data s1) ;; _) _ (s1 + 1 + len (enc_compressed origin) + len (enc_compressed mismatch))).
    + rewrite Z.shiftr_div_pow2 by lia. change (2 ^ 1) with 2. rewrite u64_id by lia. unfold wret. do 3 f_equal. lia.
    + rewrite (wb _ _ (be 1 info ++ enc_compressed origin ++ enc_compressed mismatch ++ in_bytes i ++ d)) by (unfold wlift; now rewrite (At_slice _ _ H)).
      rewrite (wb _ _ info) by (unfold wlift; now rewrite mrf1_be by lia). apply At_app in H. rewrite len_be in H. change (Z.of_nat 1) with 1 in H.
      rewrite (u64_id (s1 + 1)) by lia.
      rewrite (wb _ _ (origin, len (enc_compressed origin), None)) by (unfold wlift; erewrite r_parse by (exact H || lia); reflexivity).
      rewrite (wb _ _ tt) by reflexivity. rewrite (u64_id (s1 + 1 + _)) by lia. apply At_app in H.
      rewrite (wb _ _ (mismatch, len (enc_compressed mismatch), None)) by (unfold wlift; erewrite r_parse by (exact H || lia); reflexivity).
      rewrite (wb _ _ tt) by reflexivity. rewrite u64_id by lia. reflexivity.
  - rewrite (wb _ _ (2 * len (in_bytes i), len (enc_compressed (2 * len (in_bytes i))), None)) by (unfold wlift; erewrite r_parse by (exact H || lia); reflexivity).
    pose proof (comp_len (2 * len (in_bytes i))) as L1. rewrite !len_app in *. cbv zeta. rewrite (u64_id (s + len (enc_compressed (2 * len (in_bytes i))))) by lia. apply At_app in H.
    set (s1 := s + len (enc_compressed (2 * len (in_bytes i)))) in *.
    destruct (Z.ltb_spec (len data) s1); [lia|]. replace (Z.land (2 * len (in_bytes i)) 1) with 0.
    2:{ symmetry. change 1 with (2 ^ 1 - 1). rewrite land_ones by lia. change (2 ^ 1) with 2. lia. }
    cbn [Z.eqb]. rewrite (wb _ _ s1) by reflexivity. rewrite Z.shiftr_div_pow2 by lia. change (2 ^ 1) with 2. rewrite u64_id by lia. unfold wret. do 3 f_equal. lia.
Qed.
Lemma r_short i s d : At s (enc_insertion i ++ d) -> insertion_ok i ->
  insert_at true data s = ([], s + len (enc_insertion i), Ok None).
Proof.
  intros H Hi. unfold insert_at. erewrite pb by reflexivity. cbv beta. unfold pw.
  erewrite pb by (rewrite (insertion_run i s d H Hi); reflexivity). reflexivity.
Qed.
Lemma r_insert off i s d : At s (be 2 off ++ enc_insertion i ++ d) -> 0 <= off < 2 ^ 16 -> insertion_ok i ->
  insert_at false data s = ([], s + 2 + len (enc_insertion i), Ok None).
Proof.
  intros H Ho Hi. unfold insert_at. erewrite pb by reflexivity. cbv beta. unfold pw.
  assert (E : ParseInsertRecord false data s = ParseInsertRecord true data (s + 2)).
  { unfold ParseInsertRecord. pose proof (At_range s _ H) as R. rewrite !len_app, len_be in R. pose proof (len_nonneg d). pose proof (len_nonneg (enc_insertion i)).
    rewrite (wb _ _ (s + 2)).
    2:{ unfold wlift. rewrite (At_slice _ _ H). cbn [bind]. rewrite mrf2_be by lia. cbn [bind]. rewrite u64_id by lia. reflexivity. }
    symmetry. rewrite (wb _ _ (s + 2)) by reflexivity. reflexivity. }
  erewrite pb by (rewrite E, (insertion_run i (s + 2) d) by (exact Hi || (eapply At_skip; [exact H|now rewrite len_be])); reflexivity). reflexivity.
Qed.
Lemma r_copy is s d fuel : At s (flat_map enc_insertion is ++ d) -> Forall insertion_ok is ->
  (List.length is < fuel)%nat -> copyRecords fuel data (s + len (flat_map enc_insertion is)) s = ([], s + len (flat_map enc_insertion is), Ok None).
Proof.
  revert s fuel. induction is as [|i is IH]; intros s fuel H Hok Hf; (destruct fuel as [|f]; [cbn [List.length] in Hf; lia|]); cbn [copyRecords]; (erewrite pb by reflexivity); cbv beta.
  - cbn [flat_map]. rewrite len_nil. destruct (Z.ltb_spec s (s + 0)); [lia|]. replace (s + 0) with s by lia. reflexivity.
  - cbn [flat_map] in *. rewrite len_app. pose proof (len_insertion_pos i). pose proof (len_nonneg (flat_map enc_insertion is)).
    destruct (Z.ltb_spec s (s + (len (enc_insertion i) + len (flat_map enc_insertion is)))); [|lia].
    inversion Hok as [|? ? Hi Hr]; subst. rewrite <- app_assoc in H. unfold andthen. erewrite pb by (eapply r_short; [exact H|exact Hi]). cbv beta.
    apply At_app in H. replace (s + (len (enc_insertion i) + len (flat_map enc_insertion is))) with (s + len (enc_insertion i) + len (flat_map enc_insertion is)) by lia.
    apply IH; [exact H|exact Hr|cbn [List.length] in Hf; lia].
Qed.

(** * System values and updated fields *)
Definition value_ok (f : Z * option (list Z)) : Prop := snd f <> None.
Lemma r_fields fs s d fuel i n : At s (flat_map enc_field fs ++ d) -> Forall field_ok fs -> Forall value_ok fs -> n = i + len fs ->
  (List.length fs < fuel)%nat -> updateFields fuel data i n s = ([], s + len (flat_map enc_field fs), Ok None).
Proof.
  revert s fuel i. induction fs as [|[no [v|]] fs IH]; intros s fuel i H Hok Hv Hn Hf; (destruct fuel as [|f]; [cbn [List.length] in Hf; lia|]); cbn [updateFields].
  - unfold len in *. cbn [flat_map List.length] in *. destruct (Z.ltb_spec i n); [lia|]. replace (s + Z.of_nat 0) with s by lia. reflexivity.
  - rewrite len_cons in Hn. pose proof (len_nonneg fs). destruct (Z.ltb_spec i n); [|lia].
    inversion Hok as [|? ? [Hno Hvl] Hr]; subst x l. inversion Hv; subst. cbn [fst snd] in *. change (@zlen) with (@len) in *. cbn [flat_map] in *.
    unfold enc_field at 1 in H. unfold enc_field at 1. cbn [fst snd] in *. change (@zlen) with (@len) in *. rewrite <- !app_assoc in H.
    erewrite pb by (eapply r_comp; [exact H|lia]). cbv beta iota.
    pose proof (comp_len no). pose proof (comp_len (len v)). pose proof (len_nonneg v).
    erewrite pb by (eapply r_advance; [exact H|lia]). cbv beta. apply At_app in H.
    erewrite pb by (eapply r_comp; [exact H|lia]). cbv beta iota.
    erewrite pb by (eapply r_advance; [exact H|lia]). cbv beta. apply At_app in H.
    erewrite pb by (eapply r_advance; [exact H|lia]). cbv beta. apply At_app in H.
    rewrite (IH _ f (i + 1)); [|exact H|exact Hr|assumption|lia|cbn [List.length] in Hf; lia].
    rewrite !len_app. do 2 f_equal. lia.
  - inversion Hv as [|? ? C]; subst. cbn in C. now contradiction C.
Qed.

(** * The handlers *)
(** A field of the form enc n (or raw bytes) at the cursor: read it, move on. *)
Ltac nx H := apply At_app in H; rewrite ?len_be in H; repeat match type of H with context [Z.of_nat ?k] =>
  match k with 1%nat => change (Z.of_nat 1) with 1 in H | 2%nat => change (Z.of_nat 2) with 2 in H | 4%nat => change (Z.of_nat 4) with 4 in H
  | 7%nat => change (Z.of_nat 7) with 7 in H | 8%nat => change (Z.of_nat 8) with 8 in H end end.
Ltac adv H := erewrite pb by (eapply r_advance; [exact H|lia]); cbv beta; nx H.
Ltac f1 H := erewrite pb by (eapply r_read1; [exact H|lia]); cbv beta; adv H.
Ltac f2 H := erewrite pb by (eapply r_read2; [exact H|lia]); cbv beta; adv H.
Ltac f4 H := erewrite pb by (eapply r_read4; [exact H|lia]); cbv beta; adv H.
Ltac f7 H := erewrite pb by (eapply r_read7; [exact H|lia]); cbv beta; adv H.
Ltac fc H := match type of H with At _ (enc_compressed ?n ++ _) => pose proof (comp_len n) end;
  erewrite pb by (eapply r_comp; [exact H|lia]); cbv beta iota; adv H.
Ltac fu H := let v := fresh "v" in let E := fresh "E" in edestruct r_ull as [v E]; [exact H|lia|rewrite ?len_app, ?len_be; lia|];
  erewrite pb by exact E; cbv beta; clear E; apply At_app in H.
Ltac fin := unfold pret; apply trip; rewrite ?len_app, ?len_be; lia.

Lemma s_num t off val s d : At s (be 2 off ++ enc_compressed val ++ d) -> t <> 8 -> short off -> word val ->
  mlogNBytes data t s = ([], s + 2 + len (enc_compressed val), Ok None).
Proof.
  unfold short, word. intros H Ht Ho Hv. unfold mlogNBytes. f2 H. change MLOG_8BYTES with 8. destruct (Z.eqb_spec t 8); [contradiction|].
  pose proof (comp_len val). erewrite pb by (eapply r_comp; [exact H|lia]). cbv beta iota. erewrite pb by (eapply r_advance; [exact H|lia]). reflexivity.
Qed.
Lemma s_num8 off val s d : At s (be 2 off ++ enc_u64_compressed val ++ d) -> short off -> 0 <= val < 2 ^ 64 ->
  mlogNBytes data 8 s = ([], s + 2 + len (enc_u64_compressed val), Ok None).
Proof.
  unfold short. intros H Ho Hv. unfold mlogNBytes. f2 H. change (8 =? MLOG_8BYTES) with true. cbv iota. unfold enc_u64_compressed in *. rewrite <- app_assoc in H.
  assert (0 <= val / 2 ^ 32 < 2 ^ 32) by lia.
  pose proof (comp_len (val / 2 ^ 32)). erewrite pb by (eapply r_comp; [exact H|lia]). cbv beta iota.
  rewrite <- len_enc_compressed. adv H. adv H. fin.
Qed.
Lemma s_secdel val off s d : At s (be 1 val ++ be 2 off ++ d) -> octet val -> short off -> mlogRecSecDeleteMark data s = ([], s + 3, Ok tt).
Proof.
  unfold octet, short. intros H Hv Ho. unfold mlogRecSecDeleteMark. f1 H. erewrite pb by (eapply r_read2; [exact H|lia]). cbv beta.
  erewrite r_advance by (exact H || lia). fin.
Qed.
Lemma s_undoinit k s d : At s (enc_compressed k ++ d) -> word k -> mlogUndoInit data s = ([], s + len (enc_compressed k), Ok None).
Proof. unfold word. intros H Hk. unfold mlogUndoInit. fc H. fin. Qed.
Lemma s_reuse trx s d : At s (enc_u64_compressed trx ++ d) -> 0 <= trx < 2 ^ 64 -> high_size trx <= len d -> mlogUndoHdrReuse data s = ([], s + len (enc_u64_compressed trx), Ok tt).
Proof. intros H Ht Hd. unfold mlogUndoHdrReuse. fu H. reflexivity. Qed.
Lemma s_create trx s d : At s (enc_u64_compressed trx ++ d) -> 0 <= trx < 2 ^ 64 -> mlogUndoHdrCreate data s = ([], s + len (enc_u64_compressed trx), Ok None).
Proof.
  intros H Ht. unfold mlogUndoHdrCreate. unfold enc_u64_compressed in *. rewrite <- app_assoc in H. assert (0 <= trx / 2 ^ 32 < 2 ^ 32) by lia.
  pose proof (comp_len (trx / 2 ^ 32)). erewrite pb by (eapply r_comp; [exact H|lia]). cbv beta iota. rewrite <- len_enc_compressed. adv H. adv H. fin.
Qed.
Lemma s_string off x s d : At s (be 2 off ++ be 2 (zlen x) ++ x ++ d) -> short off -> zlen x < 2 ^ 16 -> mlogWriteString data s = ([], s + 4 + len x, Ok tt).
Proof.
  unfold short. change (@zlen) with (@len) in *. intros H Ho Hx. pose proof (len_nonneg x). unfold mlogWriteString. f2 H. f2 H. erewrite r_advance by (exact H || lia). fin.
Qed.
Lemma s_file t x s d : t <> 47 -> At s (be 2 (zlen x) ++ x ++ d) -> zlen x < 2 ^ 16 -> mlogFileOp data t s = ([], s + 2 + len x, Ok tt).
Proof.
  change (@zlen) with (@len) in *. intros Ht H Hx. pose proof (len_nonneg x). unfold mlogFileOp. change MLOG_FILE_CREATE2 with 47. destruct (Z.eqb_spec t 47); [contradiction|].
  erewrite pb by reflexivity. cbv beta. f2 H. erewrite r_advance by (exact H || lia). reflexivity.
Qed.
Lemma s_file2 fl x s d : At s (be 4 fl ++ be 2 (zlen x) ++ x ++ d) -> word fl -> zlen x < 2 ^ 16 -> mlogFileOp data 47 s = ([], s + 6 + len x, Ok tt).
Proof.
  unfold word. change (@zlen) with (@len) in *. intros H Hf Hx. pose proof (len_nonneg x). unfold mlogFileOp. change (47 =? MLOG_FILE_CREATE2) with true. cbv iota.
  erewrite pb by (erewrite pb by (eapply r_read4; [exact H|lia]); cbv beta; erewrite r_advance by (exact H || lia); reflexivity). cbv beta. nx H.
  f2 H. erewrite r_advance by (exact H || lia). fin.
Qed.
Definition isc (d : option index_desc) : bool := match d with None => false | Some _ => true end.
Lemma at_index (b : bool) od s d k : At s (enc_opt od ++ d) -> opt_ok od -> b = isc od ->
  andthen (index_at b data) k s = k (s + len (enc_opt od)).
Proof. intros H Ho ->. unfold andthen. erewrite pb by (eapply r_index; [exact H|exact Ho]). reflexivity. Qed.
Ltac idx H := erewrite (at_index _ _ _ _ _ H) by (assumption || (match goal with |- _ = isc ?d => destruct d; reflexivity end)); nx H.
Lemma s_insert od off i s d : At s (enc_opt od ++ be 2 off ++ enc_insertion i ++ d) -> opt_ok od -> short off -> insertion_ok i ->
  mlogRecInsert data (comp od 9 38) s = ([], s + len (enc_opt od) + 2 + len (enc_insertion i), Ok None).
Proof. unfold short. intros H H1 H2 H3. unfold mlogRecInsert. idx H. now rewrite (r_insert off i _ d H H2 H3). Qed.
Lemma s_clust od fl val sv off s d : At s (enc_opt od ++ be 1 fl ++ be 1 val ++ enc_sys sv ++ be 2 off ++ d) ->
  opt_ok od -> octet fl -> octet val -> sys_ok sv -> short off -> high_size (sv_trx sv) - 2 <= len d ->
  mlogRecClustDeleteMark data (comp od 10 39) s = ([], s + len (enc_opt od) + 2 + len (enc_sys sv) + 2, Ok None).
Proof.
  unfold octet, short. intros H H1 H2 H3 [S1 [S2 S3]] H4 Hd. unfold mlogRecClustDeleteMark. idx H. f1 H. f1 H. unfold enc_sys in *. rewrite <- !app_assoc in H.
  fc H. f7 H. fu H. f2 H. fin.
Qed.
Lemma s_update od fl sv off info fs s d :
  At s (enc_opt od ++ be 1 fl ++ enc_sys sv ++ be 2 off ++ be 1 info ++ enc_compressed (zlen fs) ++ flat_map enc_field fs ++ d) ->
  opt_ok od -> octet fl -> sys_ok sv -> short off -> octet info -> zlen fs < 2 ^ 32 -> Forall field_ok fs -> Forall value_ok fs -> high_size (sv_trx sv) - (3 + len (enc_compressed (zlen fs)) + len (flat_map enc_field fs)) <= len d ->
  mlogRecUpdateInPlace data (comp od 13 41) s
  = ([], s + len (enc_opt od) + 1 + len (enc_sys sv) + 3 + len (enc_compressed (zlen fs)) + len (flat_map enc_field fs), Ok None).
Proof.
  unfold octet, short. intros H H1 H2 [S1 [S2 S3]] H3 H4 H5 H6 H7 Hd. change (@zlen) with (@len) in *. unfold mlogRecUpdateInPlace, precover.
  pose proof (len_nonneg (flat_map enc_field fs)) as N1. pose proof (len_nonneg fs) as N2. pose proof (comp_len (len fs)) as L1.
  match goal with |- (match ?m ?s with _ => _ end) = ?r => cut (m s = r); [intros ->; reflexivity|] end.
  idx H. f1 H. unfold enc_sys in *. rewrite <- !app_assoc in H. fc H.
  erewrite pb by reflexivity. cbv beta. pose proof (At_range _ _ H) as R. rewrite !len_app, !len_be in R. pose proof (len_nonneg (enc_u64_compressed (sv_trx sv))). pose proof (len_nonneg d). rewrite u64_id by lia.
  match goal with |- context [if ?b then _ else _] => destruct (Z.ltb_spec (len data) (s + len (enc_opt od) + 1 + len (enc_compressed (sv_pos sv)) + 7)) end; [lia|].
  f7 H. fu H. f2 H. f1 H. fc H. rewrite (r_fields fs _ d (S (List.length data)) 0); [|exact H|exact H6|exact H7|lia|].
  2:{ pose proof (At_range _ _ H) as R2. rewrite len_app in R2. assert (len fs <= len (flat_map enc_field fs)).
      { clear. induction fs as [|f fs IH]; [reflexivity|]. cbn [flat_map]. rewrite len_cons, len_app. enough (1 <= len (enc_field f)) by lia.
        unfold enc_field. rewrite len_app. pose proof (comp_len (fst f)). match goal with |- 1 <= _ + len ?x => pose proof (len_nonneg x) end. lia. }
      unfold len in *. lia. }
  fin.
Qed.
(** Too few bytes after the transaction id *)
Lemma pbx {A B} (m : P A) (k : A -> P B) s s' : m s = ([], s', Panic) -> pbind m k s = ([], s', Panic).
Proof. unfold pbind. intros ->. reflexivity. Qed.
Lemma s_reuse_short trx s d : At s (enc_u64_compressed trx ++ d) -> 0 <= trx < 2 ^ 64 -> len d < high_size trx -> mlogUndoHdrReuse data s = ([], s + high_size trx, Panic).
Proof. intros H Ht Hd. unfold mlogUndoHdrReuse. erewrite pbx by (eapply r_ull_short; eassumption). reflexivity. Qed.
Lemma s_clust_short od fl val sv off s d : At s (enc_opt od ++ be 1 fl ++ be 1 val ++ enc_sys sv ++ be 2 off ++ d) ->
  opt_ok od -> octet fl -> octet val -> sys_ok sv -> len d < high_size (sv_trx sv) - 2 ->
  exists s', mlogRecClustDeleteMark data (comp od 10 39) s = ([], s', Panic).
Proof.
  unfold octet. intros H H1 H2 H3 [S1 [S2 S3]] Hd. unfold mlogRecClustDeleteMark. idx H. f1 H. f1 H. unfold enc_sys in *. rewrite <- !app_assoc in H.
  fc H. f7 H. eexists. eapply pbx. eapply r_ull_short; [exact H|exact S3|]. rewrite len_app, len_be. lia.
Qed.
Lemma s_update_short od fl sv off info fs s d :
  At s (enc_opt od ++ be 1 fl ++ enc_sys sv ++ be 2 off ++ be 1 info ++ enc_compressed (zlen fs) ++ flat_map enc_field fs ++ d) ->
  opt_ok od -> octet fl -> sys_ok sv -> len d < high_size (sv_trx sv) - (3 + len (enc_compressed (zlen fs)) + len (flat_map enc_field fs)) ->
  mlogRecUpdateInPlace data (comp od 13 41) s = ([], s + len (enc_opt od) + 1 + len (enc_sys sv) - 4, Ok None).
Proof.
  unfold octet. intros H H1 H2 [S1 [S2 S3]] Hd. change (@zlen) with (@len) in *. unfold mlogRecUpdateInPlace, precover.
  match goal with |- (match ?m ?s with _ => _ end) = ([], ?p, _) => cut (m s = ([], p, Panic)); [intros ->; reflexivity|] end.
  idx H. f1 H. unfold enc_sys in *. rewrite <- !app_assoc in H. fc H.
  erewrite pb by reflexivity. cbv beta. pose proof (At_range _ _ H) as R. rewrite !len_app, !len_be in R. pose proof (len_nonneg (enc_u64_compressed (sv_trx sv))).
  pose proof (len_nonneg d). pose proof (len_nonneg (flat_map enc_field fs)). pose proof (len_nonneg (enc_compressed (len fs))). rewrite u64_id by lia.
  match goal with |- context [if ?b then _ else _] => destruct (Z.ltb_spec (len data) (s + len (enc_opt od) + 1 + len (enc_compressed (sv_pos sv)) + 7)) end; [lia|].
  f7 H. erewrite pbx by (eapply r_ull_short; [exact H|exact S3|rewrite !len_app, !len_be; lia]). apply trip.
  rewrite !len_app, len_be, u64_len, <- len_enc_compressed. unfold high_size. change (@zlen) with (@len). lia.
Qed.
(** A new value NULL, written with length 2^32-1: the cursor leaves the log. *)
Lemma past_fields fuel i n s : len data <= s -> s < 2 ^ 40 -> (0 < fuel)%nat -> exists r, updateFields fuel data i n s = ([], s, r) /\ (r = Ok None \/ r = Panic).
Proof.
  intros H1 H2 Hf. destruct fuel as [|f]; [lia|]. cbn [updateFields]. destruct (i <? n).
  - unfold compressed_at. unfold pbind, getpos, plift. destruct (compressed_cases data s Hb ltac:(lia) ltac:(pose proof (len_nonneg data); lia)) as [_ C]. rewrite C by lia.
    eexists. split; [reflexivity|now right].
  - eexists. split; [reflexivity|now left].
Qed.
Lemma null_fields p fs s d fuel i n : len data < 2 ^ 32 - 1 -> At s (flat_map enc_field fs ++ enc_field (p, None) ++ d) -> Forall field_ok fs -> Forall value_ok fs -> 0 <= p < 2 ^ 32 ->
  i + len fs < n -> (List.length fs + 1 < fuel)%nat ->
  exists s' r, updateFields fuel data i n s = ([], s', r) /\ len data < s' < 2 ^ 40 /\ (r = Ok None \/ r = Panic).
Proof.
  intros Hl. revert s fuel i. induction fs as [|[no [v|]] fs IH]; intros s fuel i H Hok Hv Hp Hn Hf; (destruct fuel as [|f]; [lia|]).
  - rewrite len_nil in Hn. cbn [updateFields]. destruct (Z.ltb_spec i n); [|lia]. cbn [flat_map app] in H. unfold enc_field in H. cbn [fst snd] in H. rewrite <- !app_assoc in H.
    pose proof (comp_len p). pose proof (comp_len (2 ^ 32 - 1)). pose proof (At_range _ _ H) as R. rewrite !len_app in R. pose proof (len_nonneg d).
    erewrite pb by (eapply r_comp; [exact H|lia]). cbv beta iota.
    erewrite pb by (eapply r_advance; [exact H|lia]). cbv beta. apply At_app in H.
    erewrite pb by (eapply r_comp; [exact H|lia]). cbv beta iota.
    erewrite pb by (eapply r_advance; [exact H|lia]). cbv beta. apply At_app in H.
    erewrite pb by (eapply r_advance; [exact H|lia]). cbv beta.
    destruct (past_fields f (i + 1) n (s + len (enc_compressed p) + len (enc_compressed (2 ^ 32 - 1)) + (2 ^ 32 - 1))) as [r [E Hr]]; [lia|lia|cbn [List.length] in Hf; lia|].
    exists (s + len (enc_compressed p) + len (enc_compressed (2 ^ 32 - 1)) + (2 ^ 32 - 1)), r. split; [exact E|]. split; [lia|exact Hr].
  - cbn [updateFields]. rewrite len_cons in Hn. pose proof (len_nonneg fs). destruct (Z.ltb_spec i n); [|lia].
    inversion Hok as [|? ? [Hno Hvl] Hr]; subst x l. inversion Hv; subst. cbn [fst snd] in *. change (@zlen) with (@len) in *. cbn [flat_map] in *.
    unfold enc_field at 1 in H. cbn [fst snd] in *. change (@zlen) with (@len) in *. rewrite <- !app_assoc in H.
    erewrite pb by (eapply r_comp; [exact H|lia]). cbv beta iota.
    pose proof (comp_len no). pose proof (comp_len (len v)). pose proof (len_nonneg v).
    erewrite pb by (eapply r_advance; [exact H|lia]). cbv beta. apply At_app in H.
    erewrite pb by (eapply r_comp; [exact H|lia]). cbv beta iota.
    erewrite pb by (eapply r_advance; [exact H|lia]). cbv beta. apply At_app in H.
    erewrite pb by (eapply r_advance; [exact H|lia]). cbv beta. apply At_app in H.
    apply IH; [exact H|exact Hr|assumption|exact Hp|lia|cbn [List.length] in Hf; lia].
  - inversion Hv as [|? ? C]; subst. cbn in C. now contradiction C.
Qed.
Lemma fields_count fs : len fs <= len (flat_map enc_field fs).
Proof.
  induction fs as [|f fs IH]; [reflexivity|]. cbn [flat_map]. rewrite len_cons, len_app. enough (1 <= len (enc_field f)) by lia.
  unfold enc_field. rewrite len_app. pose proof (comp_len (fst f)). match goal with |- 1 <= _ + len ?x => pose proof (len_nonneg x) end. lia.
Qed.
Lemma s_update_null od fl sv off info fs1 p fs2 s d : len data < 2 ^ 32 - 1 ->
  At s (enc_body (BUpdate od fl sv off info (fs1 ++ (p, None) :: fs2)) ++ d) ->
  body_ok (BUpdate od fl sv off info (fs1 ++ (p, None) :: fs2)) -> Forall value_ok fs1 ->
  exists s', mlogRecUpdateInPlace data (comp od 13 41) s = ([], s', Ok None) /\ len data < s' < 2 ^ 40.
Proof.
  intros Hl H [H1 [H2 [[S1 [S2 S3]] [H3 [H4 [H5 H6]]]]]] H7. unfold octet, short in *. cbn [enc_body] in H. rewrite <- !app_assoc in H. change (@zlen) with (@len) in *. unfold mlogRecUpdateInPlace, precover.
  set (fs := fs1 ++ (p, None) :: fs2) in *.
  pose proof (len_nonneg (flat_map enc_field fs)) as N1. pose proof (len_nonneg fs) as N2. pose proof (comp_len (len fs)) as L1.
  match goal with |- exists s', match ?m s with _ => _ end = _ /\ _ => enough (X : exists s' r, m s = ([], s', r) /\ len data < s' < 2 ^ 40 /\ (r = Ok None \/ r = Panic)) end.
  { destruct X as [s' [r [-> [R [-> | ->]]]]]; exists s'; (split; [reflexivity|exact R]). }
  idx H. f1 H. unfold enc_sys in *. rewrite <- !app_assoc in H. fc H.
  erewrite pb by reflexivity. cbv beta. pose proof (At_range _ _ H) as R. rewrite !len_app, !len_be in R. pose proof (len_nonneg (enc_u64_compressed (sv_trx sv))). pose proof (len_nonneg d). rewrite u64_id by lia.
  match goal with |- context [if ?b then _ else _] => destruct (Z.ltb_spec (len data) (s + len (enc_opt od) + 1 + len (enc_compressed (sv_pos sv)) + 7)) end; [lia|].
  assert (N3 : 1 <= len (flat_map enc_field fs)) by (pose proof (fields_count fs); assert (1 <= len fs) by (unfold fs; rewrite len_app, len_cons; pose proof (len_nonneg fs1); pose proof (len_nonneg fs2); lia); lia).
  pose proof (high_range (sv_trx sv)). f7 H. fu H. f2 H. f1 H. fc H. unfold fs in H. rewrite flat_map_app in H. cbn [flat_map] in H. rewrite <- !app_assoc in H.
  unfold fs in H6. apply Forall_app in H6 as [H6 HN]. inversion HN as [|? ? [HP _] _]; subst.
  eapply null_fields; [exact Hl|exact H|exact H6|exact H7|exact HP| |].
  - unfold fs. rewrite len_app, len_cons. pose proof (len_nonneg fs2). lia.
  - pose proof (At_range _ _ H) as R2. rewrite !len_app in R2. pose proof (fields_count fs1). pose proof (fields_count [(p, None)]) as X. cbn [flat_map] in X. rewrite app_nil_r in X. rewrite len_cons, len_nil in X.
    pose proof (len_nonneg (flat_map enc_field fs2)). unfold len in *. lia.
Qed.
Lemma s_delete od off s d : At s (enc_opt od ++ be 2 off ++ d) -> opt_ok od -> short off ->
  mlogRecDelete data (comp od 14 42) s = ([], s + len (enc_opt od) + 2, Ok None).
Proof. unfold short. intros H H1 H2. unfold mlogRecDelete. idx H. f2 H. fin. Qed.
Lemma s_listdelete od (st : bool) off s d : At s (enc_opt od ++ be 2 off ++ d) -> opt_ok od -> short off ->
  mlogListDelete data (if st then comp od 16 44 else comp od 15 43) s = ([], s + len (enc_opt od) + 2, Ok None).
Proof.
  unfold short. intros H H1 H2. unfold mlogListDelete. erewrite (at_index _ _ _ _ _ H) by (assumption || (destruct od, st; reflexivity)). nx H. f2 H. fin.
Qed.
Lemma s_copy od is s d : At s (enc_opt od ++ be 4 (zlen (flat_map enc_insertion is)) ++ flat_map enc_insertion is ++ d) ->
  opt_ok od -> zlen (flat_map enc_insertion is) < 2 ^ 32 -> Forall insertion_ok is ->
  mlogListEndCopyCreated data (comp od 17 45) s = ([], s + len (enc_opt od) + 4 + len (flat_map enc_insertion is), Ok None).
Proof.
  change (@zlen) with (@len) in *. intros H H1 H2 H3. pose proof (len_nonneg (flat_map enc_insertion is)) as N. unfold mlogListEndCopyCreated. idx H. f4 H.
  erewrite pb by reflexivity. cbv beta zeta. pose proof (At_range _ _ H) as R. rewrite len_app in R. pose proof (len_nonneg d). rewrite u64_id by lia.
  match goal with |- (if ?b then _ else _) _ = _ => destruct b eqn:E; [lia|] end.
  rewrite (r_copy is _ d); [reflexivity|exact H|exact H3|].
  assert (len is <= len (flat_map enc_insertion is)).
  { clear. induction is as [|f fs IH]; [reflexivity|]. cbn [flat_map]. rewrite len_cons, len_app. pose proof (len_insertion_pos f). lia. }
  unfold len in *. lia.
Qed.
Lemma s_reorg od s d : At s (enc_opt od ++ d) -> opt_ok od ->
  mlogPageReorganize data (comp od 18 46) s = ([], s + len (enc_opt od), Ok None).
Proof. intros H H1. unfold mlogPageReorganize. idx H. destruct od; reflexivity. Qed.
Lemma s_zreorg dd l s d : At s (enc_desc dd ++ be 1 l ++ d) -> desc_ok dd -> octet l ->
  mlogPageReorganize data 53 s = ([], s + len (enc_desc dd) + 1, Ok None).
Proof.
  unfold octet. intros H H1 H2. unfold mlogPageReorganize. change (enc_desc dd) with (enc_opt (Some dd)) in *.
  erewrite (at_index _ _ _ _ _ H) by (assumption || reflexivity). nx H. change (53 =? MLOG_ZIP_PAGE_REORGANIZE) with true. cbv iota. f1 H. fin.
Qed.
Lemma s_znodata dd l s d : At s (enc_desc dd ++ be 1 l ++ d) -> desc_ok dd -> octet l ->
  mlogZipPageCompressNoData data s = ([], s + len (enc_desc dd) + 1, Ok None).
Proof.
  unfold octet. intros H H1 H2. unfold mlogZipPageCompressNoData. change (enc_desc dd) with (enc_opt (Some dd)) in *.
  erewrite (at_index _ _ _ _ _ H) by (assumption || reflexivity). nx H. f1 H. fin.
Qed.
Lemma s_znode a b p s d : At s (be 2 a ++ be 2 b ++ be 4 p ++ d) -> short a -> short b -> mlogZipWriteNodePtr data s = ([], s + 8, Ok tt).
Proof. unfold short. intros H H1 H2. unfold mlogZipWriteNodePtr. f2 H. f2 H. erewrite r_advance by (exact H || lia). fin. Qed.
Lemma s_zheader o x s d : At s (be 1 o ++ be 1 (zlen x) ++ x ++ d) -> octet o -> zlen x < 2 ^ 8 -> mlogZipWriteHeader data s = ([], s + 2 + len x, Ok tt).
Proof.
  unfold octet. change (@zlen) with (@len) in *. intros H H1 H2. pose proof (len_nonneg x). unfold mlogZipWriteHeader.
  erewrite pb by (eapply r_byte; [exact H|lia]). cbv beta. adv H. erewrite pb by (eapply r_byte; [exact H|lia]). cbv beta. adv H.
  erewrite r_advance by (exact H || lia). fin.
Qed.
Lemma s_zcompress p n x t s d : At s (be 2 (zlen x) ++ be 2 (zlen t) ++ be 4 p ++ be 4 n ++ x ++ t ++ d) -> zlen x < 2 ^ 16 -> zlen t < 2 ^ 16 ->
  mlogZipPageCompress data s = ([], s + 12 + len x + len t, Ok tt).
Proof.
  change (@zlen) with (@len) in *. intros H H1 H2. pose proof (len_nonneg x). pose proof (len_nonneg t). unfold mlogZipPageCompress. f2 H. f2 H.
  erewrite r_advance by (exact H || lia). fin.
Qed.
End At.

(** * One record *)
Section Step.
Variable rt : runtime.
Variable tm : gomap Table.
Variable db tb : bytes.
Variable data : bytes.
Variable spare : nat.
Hypothesis Hb : all_bytes data.
Hypothesis Hs : len data < 2 ^ 62.
Local Notation At := (At data).

Lemma r_dropped {A} (m : P A) s s' a : m s = ([], s', Ok a) -> dropped m s = ([], s', Ok None).
Proof. intro E. unfold dropped. erewrite pb by exact E. reflexivity. Qed.
Lemma r_dropped2 {A} (m : P A) s s' s'' a : m s = ([], s', Ok a) -> s' = s'' -> dropped m s = ([], s'', Ok None).
Proof. intros E <-. exact (r_dropped _ _ _ _ E). Qed.
Lemma r_nil s s' : s = s' -> pret (A := option bytes) None s = ([], s', Ok None).
Proof. now intros ->. Qed.
Lemma advance_to s d n s' : At s d -> 0 <= n < 2 ^ 62 -> s + n = s' -> dropped (advance n) s = ([], s', Ok None).
Proof. intros H Hn <-. eapply r_dropped. eapply r_advance; eassumption. Qed.

Lemma body_step b s d : At s (enc_body b ++ d) -> body_ok b -> ordinary b -> room b <= len d ->
  redo_switch rt tm db tb data spare (type_of b) s = ([], s + len (enc_body b), Ok None).
Proof.
  intros H Hok Hord Hr.
  destruct b; cbn [enc_body body_ok ordinary room type_of] in *; try contradiction.
  - destruct Hok as [Ht [H1 H2]]. rewrite <- !app_assoc in H. change (redo_switch rt tm db tb data spare size) with (redo_switch rt tm db tb data spare size).
    assert (E : redo_switch rt tm db tb data spare size = dropped (mlogNBytes data size)) by (cbn in Ht; destruct Ht as [<-|[<-|[<-|[]]]]; reflexivity).
    rewrite E. eapply r_dropped2; [eapply s_num; try eassumption; cbn in Ht; lia|]. rewrite len_app, len_be. lia.
  - destruct Hok as [H1 H2]. rewrite <- !app_assoc in H. change (redo_switch rt tm db tb data spare 8) with (dropped (mlogNBytes data 8)).
    eapply r_dropped2; [eapply s_num8; eassumption|]. rewrite len_app, len_be. lia.
  - unfold no_body in Hok. cbn [In] in Hok. rewrite len_nil. repeat (destruct Hok as [<-|Hok]; [now apply r_nil; lia|]). contradiction.
  - destruct Hok as [H1 H2]. rewrite <- !app_assoc in H. change (redo_switch rt tm db tb data spare 11) with (dropped (mlogRecSecDeleteMark data)).
    eapply r_dropped2; [eapply s_secdel; eassumption|]. rewrite len_app, !len_be. lia.
  - change (redo_switch rt tm db tb data spare 22) with (dropped (mlogUndoInit data)). eapply r_dropped. eapply s_undoinit; eassumption.
  - change (redo_switch rt tm db tb data spare 24) with (dropped (mlogUndoHdrReuse data)). eapply r_dropped. eapply s_reuse; eassumption.
  - change (redo_switch rt tm db tb data spare 25) with (dropped (mlogUndoHdrCreate data)). eapply r_dropped. eapply s_create; eassumption.
  - destruct Hok as [H1 H2]. rewrite <- !app_assoc in H. change (redo_switch rt tm db tb data spare 30) with (dropped (mlogWriteString data)).
    eapply r_dropped2; [eapply s_string; eassumption|]. rewrite !len_app, !len_be. lia.
  - destruct Hok as [Ht H1]. rewrite <- !app_assoc in H.
    assert (E : redo_switch rt tm db tb data spare type = dropped (mlogFileOp data type)) by (cbn in Ht; destruct Ht as [<-|[<-|[<-|[]]]]; reflexivity).
    rewrite E. eapply r_dropped2; [eapply s_file; try eassumption; cbn in Ht; lia|]. rewrite len_app, len_be. lia.
  - destruct Hok as [H1 H2]. rewrite <- !app_assoc in H. change (redo_switch rt tm db tb data spare 47) with (dropped (mlogFileOp data 47)).
    eapply r_dropped2; [eapply s_file2; eassumption|]. rewrite !len_app, !len_be. lia.
  - assert (E : redo_switch rt tm db tb data spare (if comp then 36 else 26) = dropped (advance 2)) by (destruct comp; reflexivity).
    rewrite E. eapply advance_to; [exact H|lia|]. rewrite len_be. lia.
  - destruct Hok as [H1 [H2 H3]]. rewrite <- !app_assoc in H.
    assert (E : redo_switch rt tm db tb data spare (comp d0 9 38) = mlogRecInsert data (comp d0 9 38)) by (destruct d0; reflexivity).
    rewrite E. erewrite s_insert by eassumption. apply trip. rewrite !len_app, !len_be. lia.
  - destruct Hok as [H1 [H2 [H3 [H4 H5]]]]. rewrite <- !app_assoc in H.
    assert (E : redo_switch rt tm db tb data spare (comp d0 10 39) = dropped (mlogRecClustDeleteMark data (comp d0 10 39))) by (destruct d0; reflexivity).
    rewrite E. eapply r_dropped2; [eapply s_clust; try eassumption; lia|]. rewrite !len_app, !len_be. lia.
  - destruct Hok as [H1 [H2 [H3 [H4 [H5 [H6 H7]]]]]]. rewrite <- !app_assoc in H.
    assert (E : redo_switch rt tm db tb data spare (comp d0 13 41) = dropped (mlogRecUpdateInPlace data (comp d0 13 41))) by (destruct d0; reflexivity).
    rewrite E. eapply r_dropped2; [eapply s_update; try eassumption; change (@zlen) with (@len) in *; lia|]. rewrite !len_app, !len_be. lia.
  - destruct Hok as [H1 H2]. rewrite <- !app_assoc in H.
    assert (E : redo_switch rt tm db tb data spare (comp d0 14 42) = dropped (mlogRecDelete data (comp d0 14 42))) by (destruct d0; reflexivity).
    rewrite E. eapply r_dropped2; [eapply s_delete; eassumption|]. rewrite !len_app, !len_be. lia.
  - destruct Hok as [H1 H2]. rewrite <- !app_assoc in H. set (t := if start then comp d0 16 44 else comp d0 15 43).
    assert (E : redo_switch rt tm db tb data spare t = dropped (mlogListDelete data t)) by (unfold t; destruct start, d0; reflexivity).
    rewrite E. eapply r_dropped2; [eapply s_listdelete; eassumption|]. rewrite !len_app, !len_be. lia.
  - destruct Hok as [H1 [H2 H3]]. rewrite <- !app_assoc in H.
    assert (E : redo_switch rt tm db tb data spare (comp d0 17 45) = dropped (mlogListEndCopyCreated data (comp d0 17 45))) by (destruct d0; reflexivity).
    rewrite E. eapply r_dropped2; [eapply s_copy; eassumption|]. rewrite !len_app, !len_be. lia.
  - assert (E : redo_switch rt tm db tb data spare (comp d0 18 46) = dropped (mlogPageReorganize data (comp d0 18 46))) by (destruct d0; reflexivity).
    rewrite E. eapply r_dropped. eapply s_reorg; eassumption.
  - destruct Hok as [H1 H2]. rewrite <- !app_assoc in H. change (redo_switch rt tm db tb data spare 53) with (dropped (mlogPageReorganize data 53)).
    eapply r_dropped2; [eapply s_zreorg; eassumption|]. rewrite !len_app, !len_be. lia.
  - destruct Hok as [H1 [H2 H3]]. rewrite <- !app_assoc in H. change (redo_switch rt tm db tb data spare 48) with (dropped (mlogZipWriteNodePtr data)).
    eapply r_dropped2; [eapply s_znode; eassumption|]. rewrite !len_app, !len_be. lia.
  - destruct Hok as [H1 [H2 H3]]. rewrite zl in H3. change (redo_switch rt tm db tb data spare 49) with (dropped (advance 24)).
    eapply advance_to; [exact H|lia|]. rewrite !len_app, !len_be. lia.
  - destruct Hok as [H1 H2]. rewrite <- !app_assoc in H. change (redo_switch rt tm db tb data spare 50) with (dropped (mlogZipWriteHeader data)).
    eapply r_dropped2; [eapply s_zheader; eassumption|]. rewrite !len_app, !len_be. lia.
  - destruct Hok as [H1 [H2 [H3 H4]]]. rewrite <- !app_assoc in H. change (redo_switch rt tm db tb data spare 51) with (dropped (mlogZipPageCompress data)).
    eapply r_dropped2; [eapply s_zcompress; eassumption|]. rewrite !len_app, !len_be. lia.
  - destruct Hok as [H1 H2]. rewrite <- !app_assoc in H. change (redo_switch rt tm db tb data spare 52) with (dropped (mlogZipPageCompressNoData data)).
    eapply r_dropped2; [eapply s_znodata; eassumption|]. rewrite !len_app, !len_be. lia.
  - change (redo_switch rt tm db tb data spare 60) with (dropped (advance 8)). eapply advance_to; [exact H|lia|]. rewrite len_be. lia.
  - change (redo_switch rt tm db tb data spare 61) with (dropped (advance 8)). eapply advance_to; [exact H|lia|]. rewrite len_be. lia.
Qed.

(** An ordinary record with too few bytes after it *)
Lemma body_short b s d : At s (enc_body b ++ d) -> body_ok b -> ordinary b -> len d < room b ->
  match b with
  | BUpdate _ _ _ _ _ fields => redo_switch rt tm db tb data spare (type_of b) s
      = ([], s + len (enc_body b) - (7 + len (enc_compressed (zlen fields)) + len (flat_map enc_field fields)), Ok None)
  | BUndoReuse _ | BClustDelete _ _ _ _ _ => exists s', redo_switch rt tm db tb data spare (type_of b) s = ([], s', Panic)
  | _ => False
  end.
Proof.
  intros H Hok Hord Hr. pose proof (len_nonneg d) as Nd.
  destruct b; cbn [enc_body body_ok ordinary room type_of] in *; try contradiction; try lia.
  - change (redo_switch rt tm db tb data spare 24) with (dropped (mlogUndoHdrReuse data)). eexists. unfold dropped. eapply pbx. eapply s_reuse_short; eassumption.
  - destruct Hok as [H1 [H2 [H3 [H4 H5]]]]. rewrite <- !app_assoc in H.
    assert (E : redo_switch rt tm db tb data spare (comp d0 10 39) = dropped (mlogRecClustDeleteMark data (comp d0 10 39))) by (destruct d0; reflexivity).
    rewrite E. destruct (s_clust_short data Hb Hs d0 flags val s0 off s d H H1 H2 H3 H4 ltac:(lia)) as [s' E']. exists s'. unfold dropped. now apply pbx.
  - destruct Hok as [H1 [H2 [H3 [H4 [H5 [H6 H7]]]]]]. rewrite <- !app_assoc in H.
    assert (E : redo_switch rt tm db tb data spare (comp d0 13 41) = dropped (mlogRecUpdateInPlace data (comp d0 13 41))) by (destruct d0; reflexivity).
    rewrite E. eapply r_dropped2; [eapply s_update_short; try eassumption; change (@zlen) with (@len) in *; lia|]. rewrite !len_app, !len_be. lia.
Qed.
(** The front of a record: the switch runs right after space and page number. *)
Lemma type_range b : body_ok b -> 1 <= type_of b < 64 /\ type_of b <> 31 /\ type_of b <> 56 /\ validateLogHeader (type_of b) = true.
Proof.
  destruct b; cbn [type_of body_ok]; unfold no_body; cbn [In]; intro H;
  repeat match goal with |- context [comp ?d _ _] => destruct d; cbn [comp] | |- context [if ?b then _ else _] => destruct b end;
  try (repeat split; (lia || reflexivity));
  repeat match goal with H : _ /\ _ |- _ => destruct H end;
  repeat match goal with H : _ \/ _ |- _ => destruct H as [<-|H]; [repeat split; (lia || reflexivity)|] end; contradiction.
Qed.
Lemma front single sp pg b s d : At s (enc_entry (ERecord single sp pg b) ++ d) -> word sp -> word pg -> body_ok b ->
  exists s', s' = s + 1 + len (enc_compressed sp) + len (enc_compressed pg) /\ At s' (enc_body b ++ d) /\
  redo_step rt tm db tb data spare s = redo_switch rt tm db tb data spare (type_of b) s'.
Proof.
  intros H Hsp Hpg Hbo. unfold word in *. destruct (type_range b Hbo) as [T1 [T2 [T3 T4]]].
  cbn [enc_entry] in H. rewrite <- app_comm_cons, <- !app_assoc in H.
  set (t := type_of b + (if single then 128 else 0)) in *.
  assert (Ht : 0 <= t < 256) by (unfold t; destruct single; lia).
  change (t :: ?l) with ([t] ++ l) in H. assert (E1 : [t] = be 1 t) by (rewrite be1_cons; f_equal; lia).
  change (t :: enc_compressed sp ++ enc_compressed pg ++ enc_body b ++ d) with ([t] ++ enc_compressed sp ++ enc_compressed pg ++ enc_body b ++ d) in H.
  rewrite E1 in H. unfold redo_step.
  erewrite pb by (eapply r_read1; [exact H|lia]). cbv beta.
  erewrite pb by (eapply r_advance; [exact Hs|exact H|lia]). cbv beta. apply At_app in H. rewrite len_be in H. change (Z.of_nat 1) with 1 in H.
  erewrite pb by reflexivity. cbv beta. change MLOG_MULTI_REC_END with 31.
  destruct (Z.eqb_spec t 31); [unfold t in *; destruct single; lia|].
  assert (E2 : Z.ldiff t MLOG_SINGLE_REC_FLAG = type_of b).
  { change MLOG_SINGLE_REC_FLAG with (2 ^ 7). rewrite ldiff_pow2 by lia. rewrite testbit_high by lia. unfold t in *. destruct single.
    - destruct (Z.leb_spec (2 ^ 7) (type_of b + 128)); lia.
    - destruct (Z.leb_spec (2 ^ 7) (type_of b + 0)); lia. }
  cbv zeta. rewrite E2. change MLOG_CHECKPOINT with 56. destruct (Z.eqb_spec (type_of b) 56); [contradiction|]. cbn [negb].
  pose proof (comp_len sp). pose proof (comp_len pg).
  erewrite pb by (eapply r_comp; [exact Hb|exact Hs|exact H|lia]). cbv beta iota.
  erewrite pb by (eapply r_advance; [exact Hs|exact H|lia]). cbv beta. apply At_app in H.
  erewrite pb by (eapply r_comp; [exact Hb|exact Hs|exact H|lia]). cbv beta iota.
  erewrite pb by (eapply r_advance; [exact Hs|exact H|lia]). cbv beta. apply At_app in H.
  rewrite T4. cbn [negb]. eexists. split; [reflexivity|]. split; [exact H|reflexivity].
Qed.
Definition entry_ordinary (e : entry) : Prop := match e with ERecord _ _ _ b => ordinary b | EDummy => False | _ => True end.
Definition entry_room (e : entry) : Z := match e with ERecord _ _ _ b => room b | _ => 0 end.
Lemma entry_step e s d : At s (enc_entry e ++ d) -> entry_ok e -> entry_ordinary e -> entry_room e <= len d ->
  redo_step rt tm db tb data spare s = ([], s + len (enc_entry e), Ok None).
Proof.
  destruct e as [single sp pg b| |lsn|]; cbn [entry_ok entry_ordinary entry_room]; intros H Hok Hord Hr.
  - destruct Hok as [H1 [H2 H3]]. destruct (front _ _ _ _ _ _ H H1 H2 H3) as [s' [E [H' ->]]].
    rewrite (body_step b s' d H' H3 Hord Hr). apply trip. cbn [enc_entry]. rewrite len_cons, !len_app. lia.
  - cbn [enc_entry] in *. unfold redo_step. assert (E1 : [31] = be 1 31) by reflexivity. rewrite E1 in H.
    erewrite pb by (eapply r_read1; [exact H|lia]). cbv beta.
    erewrite pb by (eapply r_advance; [exact Hs|exact H|lia]). cbv beta. erewrite pb by reflexivity. reflexivity.
  - cbn [enc_entry] in *. change (56 :: be 8 lsn) with (be 1 56 ++ be 8 lsn) in *. rewrite <- app_assoc in H. unfold redo_step.
    erewrite pb by (eapply r_read1; [exact H|lia]). cbv beta.
    erewrite pb by (eapply r_advance; [exact Hs|exact H|lia]). cbv beta. apply At_app in H. rewrite len_be in H.
    erewrite pb by reflexivity. cbv beta. change (56 =? MLOG_MULTI_REC_END) with false. cbv iota zeta.
    change (Z.ldiff 56 MLOG_SINGLE_REC_FLAG) with 56. change (56 =? MLOG_CHECKPOINT) with true. cbn [negb].
    change (redo_switch rt tm db tb data spare 56) with (dropped (advance 8)). eapply advance_to; [exact H|lia|]. rewrite len_app, !len_be. lia.
  - contradiction.
Qed.
End Step.
