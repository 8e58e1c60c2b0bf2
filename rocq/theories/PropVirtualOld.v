(** C113: virtual columns and REDUNDANT records. *)
From Coq Require Import ZifyBool.
From Verif Require Import GoBase Utils Ibdata SpecInno SpecText SpecSql SpecRecord SpecRow SpecPage SpecDict
  PropFile PropGeometry PropVarchar PBase PWire PValue PText PPage PTypes PropValue PropRec GoBase PRec PNode.
Local Open Scope list_scope.
Local Open Scope Z_scope.

Lemma low_seven b : 0 <= b < 256 -> Z.land (if Z.land b 128 =? 0 then b else Z.lor (Z.ldiff b 128) (2 ^ 31)) 65535 = b mod 128.
Proof.
  assert (F : forallb (fun k => Z.land (if Z.land (Z.of_nat k) 128 =? 0 then Z.of_nat k else Z.lor (Z.ldiff (Z.of_nat k) 128) (2 ^ 31)) 65535 =? Z.of_nat k mod 128) (seq 0 256) = true) by (vm_compute; reflexivity).
  intro H. rewrite forallb_forall in F. specialize (F (Z.to_nat b) ltac:(apply in_seq; lia)). rewrite Z2Nat.id in F by lia. now apply Z.eqb_eq.
Qed.
(** The byte below a record's end offsets is taken for one more. *)
Lemma offsets_extra page off fs n b : all_bytes page -> redundant_at page off false fs -> (List.length fs < n)%nat -> (3 <= n)%nat -> len page < 2 ^ 62 ->
  2 * Z.of_nat n + 6 <= off <= len page -> index page (off - (6 + len fs + 1)) = Ok b ->
  exists x y z, ibRecInitOffsetsOld page off (zeros (n * 2)) n = Ok ([0; x; y] ++ entries 0 (map plain fs) ++ b mod 128 :: z).
Proof.
  intros Hpb (pre & header & post & Hp & Hh & Hbit & Hoff & Hb) Hle Hn Hpl Hob Hbyte. change (@zlen) with (@len) in *. cbv zeta iota in *.
  set (offsets := rev (ends (2 ^ 7) 0 fs)) in *.
  assert (Hd : page = (pre ++ offsets) ++ header ++ (rbody fs ++ post)) by (rewrite Hp, <- !app_assoc; reflexivity).
  assert (Hlens : 0 <= len pre /\ 0 <= len offsets /\ 0 <= len (rbody fs) /\ 0 <= len post) by (repeat split; apply len_nonneg).
  assert (Hplen : len page = len pre + len offsets + 6 + len (rbody fs) + len post) by (rewrite Hp, !len_app, Hh; lia).
  unfold ibRecInitOffsetsOld. replace (zeros (n * 2)) with ([0; 0; 0] ++ zeros (n + (n - 3))).
  2:{ change [0; 0; 0] with (zeros 3). rewrite <- zeros_split. f_equal. lia. }
  set (tail := zeros _) at 1. change ([0; 0; 0] ++ tail) with ([0; 0] ++ 0 :: tail). rewrite set_index_app by reflexivity. cbn [bind].
  change ([0; 0] ++ 0 :: tail) with ([0] ++ 0 :: 0 :: tail). rewrite set_index_app by reflexivity. cbn [bind].
  assert (Hflag : RecGet1byteOffsFlag page off = Ok 1).
  { unfold RecGet1byteOffsFlag, RecGetBitField1. rewrite u64_id by lia.
    assert (Hi : index page (off - 3) = Ok (nth 3 header 0)).
    { replace (off - 3) with (len (pre ++ offsets) + Z.of_nat 3) by (rewrite len_app; lia). rewrite Hd. apply index_from_app. apply nth_error_nth'. unfold len in Hh. lia. }
    destruct (slice_index _ _ _ Hi) as [E1 [t E2]]. rewrite E1. cbn [bind]. rewrite E2, mrf1_cons. cbn [bind]. change 1 with (2 ^ 1 - 1) at 1. rewrite land_ones by lia. change (2 ^ 1) with 2. rewrite Hbit. reflexivity. }
  rewrite Hflag. cbn [bind]. change ([0] ++ Z.of_nat n :: 0 :: tail) with ([0; Z.of_nat n] ++ 0 :: tail).
  assert (Hent : map (fun j => len (rbody (firstn (S j) fs))) (seq 0 (List.length fs)) = entries 0 (map plain fs)) by (rewrite plain_entries; apply map_ext; intro; lia).
  change (negb (1 =? 0)) with true. cbv iota. rewrite set_index_app by reflexivity. cbn [bind].
  set (x := 6 + _). change ([0; Z.of_nat n] ++ x :: tail) with ([0; Z.of_nat n; x] ++ tail). unfold tail.
  set (k := (n - List.length fs - 1)%nat). replace (offsetsOld1 n) with (offsetsOld1 (List.length fs + S k)) by (f_equal; unfold k; lia). rewrite old1_split.
  change 0 with (Z.of_nat 0) at 1. replace (n + (n - 3))%nat with (List.length fs + (S k + (n - 3)))%nat by (unfold k; lia).
  rewrite (old1_loop page off fs Hb); [|intros i f Hf|lia|reflexivity].
  - cbn [bind]. rewrite Hent. rewrite app_assoc. cbn [offsetsOld1]. unfold Rec1GetFieldEndInfo at 1. fold (len fs). rewrite Z.add_0_l. rewrite u64_id by (unfold len in *; lia).
    destruct (slice_index _ _ _ Hbyte) as [E1 [t E2]]. rewrite E1. cbn [bind]. rewrite E2, mrf1_cons. cbn [bind]. cbv zeta.
    assert (B : 0 <= b < 256).
    { unfold all_bytes in Hpb. rewrite Forall_forall in Hpb. apply (Hpb b). unfold index in Hbyte. destruct (_ && _) in Hbyte; [|discriminate]. destruct (nth_error page _) eqn:N in Hbyte; [|discriminate]. injection Hbyte as <-. exact (nth_error_In _ _ N). }
    set (os0 := [0; Z.of_nat n; x] ++ entries 0 (map plain fs)). assert (L0 : len os0 = 3 + len fs) by (unfold os0, len; rewrite app_length, entries_len, map_length; cbn [List.length]; lia).
    rewrite low_seven by exact B. cbn [plus zeros repeat]. rewrite set_index_app by lia. cbn [bind].
    change (repeat 0 (k + (n - 3))) with (zeros (k + (n - 3))).
    replace (os0 ++ b mod 128 :: zeros (k + (n - 3))) with ((os0 ++ [b mod 128]) ++ zeros (k + (n - 3))) by (rewrite <- app_assoc; reflexivity).
    destruct (old1_any page off k (len fs + 1) (os0 ++ [b mod 128]) (n - 3)) as [vs [_ E]].
    + intros j Hj. apply read1_any; [assumption|lia|unfold len in *; lia|unfold k, len in *; lia].
    + rewrite len_app, L0. change (len [b mod 128]) with 1. lia.
    + rewrite E. exists (Z.of_nat n), x, (vs ++ zeros (n - 3)). unfold os0. now rewrite <- !app_assoc.
  - unfold Rec1GetFieldEndInfo. pose proof (ends_nth (2 ^ 7) fs 0 i f Hf) as He. rewrite Z.add_0_l in He. set (e := len (rbody (firstn (S i) fs)) + _) in *.
    assert (Hlo : len offsets = len fs) by (unfold offsets; rewrite len_rev; unfold len; now rewrite ends_length).
    assert (Hi : (i < List.length fs)%nat) by (apply nth_error_Some; congruence). rewrite u64_id by (unfold len in *; lia).
    assert (Hidx : index page (off - (6 + Z.of_nat i + 1)) = Ok e).
    { replace (off - (6 + Z.of_nat i + 1)) with (len pre + len (ends (2 ^ 7) 0 fs) - 1 - Z.of_nat i).
      - rewrite Hp. unfold offsets. now apply index_rev_app.
      - unfold len at 2. rewrite ends_length. fold (len fs). lia. }
    destruct (slice_index _ _ _ Hidx) as [E1 [t E2]]. rewrite E1. cbn [bind]. rewrite E2. apply mrf1_cons.
Qed.

(** The columns of the record, whatever is thought of them, and then one whose size is wrong. *)
Lemma check_more os fs : holds os fs -> len (body fs) < 2 ^ 30 -> forall cols i v more, List.length cols = List.length (skipn i fs) -> (i <= List.length fs)%nat ->
  checkFieldSize os (Z.of_nat (List.length fs)) (v :: more) = Ok false -> checkFieldSize os (Z.of_nat i) (cols ++ v :: more) = Ok false.
Proof.
  intros Ho Hb. induction cols as [|c cols IH]; intros i v more Hl Hi Hv.
  - cbn [app]. rewrite skipn_length in Hl. cbn in Hl. replace i with (List.length fs) by lia. exact Hv.
  - destruct (skipn i fs) as [|f rest] eqn:Hs; [discriminate|]. destruct (skipn_cons_nth fs i f rest Hs) as [Hnth Hskip]. cbn [app checkFieldSize]. replace (Z.of_nat i + 1) with (Z.of_nat (S i)) by lia.
    assert (i < List.length fs)%nat by (apply nth_error_Some; congruence). rewrite (IH (S i) v more) by (rewrite ?Hskip; try (now injection Hl); try lia; exact Hv).
    rewrite (nth_size os fs i f Ho Hnth Hb). cbn [bind]. destruct (negb _); [|reflexivity]. destruct (_ && _); [reflexivity|]. destruct (_ && _); reflexivity.
Qed.
Lemma size_extra fs x y b z : len (body (map plain fs)) < 2 ^ 7 -> 0 <= b < 256 -> (0 < List.length fs)%nat ->
  RecOffsNthSize ([0; x; y] ++ entries 0 (map plain fs) ++ b mod 128 :: z) (Z.of_nat (List.length fs))
  = Ok (if b mod 128 <? len (body (map plain fs)) then 2 ^ 30 + b mod 128 - len (body (map plain fs)) else b mod 128 - len (body (map plain fs))).
Proof.
  intros Hb HB Hn. unfold RecOffsNthSize. replace (Z.of_nat (List.length fs) =? 0) with false by lia.
  change ([0; x; y] ++ entries 0 (map plain fs) ++ b mod 128 :: z) with ([0; x] ++ y :: entries 0 (map plain fs) ++ b mod 128 :: z). rewrite slice_from_app_eq by reflexivity. cbn [bind].
  set (n := List.length fs) in *. set (T := len (body (map plain fs))) in *.
  assert (HT : exists E', entries 0 (map plain fs) = E' ++ [T] /\ List.length E' = (n - 1)%nat).
  { rewrite plain_entries. replace (seq 0 (List.length fs)) with (seq 0 (n - 1) ++ [(0 + (n - 1))%nat]) by (rewrite <- seq_S; f_equal; unfold n in *; lia). rewrite map_app. cbn [map]. eexists. split; [f_equal; f_equal|rewrite map_length, seq_length; reflexivity].
    unfold T. rewrite body_plain. replace (S (0 + (n - 1)))%nat with (List.length fs) by (unfold n in *; lia). rewrite firstn_all. lia. }
  destruct HT as [E' [HE HL]]. rewrite HE. change (y :: (E' ++ [T]) ++ b mod 128 :: z) with ((y :: E' ++ [T]) ++ [b mod 128] ++ z).
  replace (1 + Z.of_nat n) with (len (y :: E' ++ [T]) + Z.of_nat 0) by (unfold len; cbn [List.length]; rewrite app_length; cbn [List.length]; lia).
  rewrite (index_from_app _ [b mod 128] z 0 (b mod 128)) by reflexivity. cbn [bind].
  replace ((y :: E' ++ [T]) ++ [b mod 128] ++ z) with ((y :: E') ++ [T] ++ (b mod 128 :: z)) by (cbn [app]; rewrite <- app_assoc; reflexivity).
  replace (Z.of_nat n) with (len (y :: E') + Z.of_nat 0) by (unfold len; cbn [List.length]; lia).
  rewrite (index_from_app _ [T] _ 0 T) by reflexivity. cbn [bind]. f_equal. pose proof (len_nonneg (body (map plain fs))) as HT0. fold T in HT0. pose proof (Z.mod_pos_bound b 128 ltac:(lia)) as HM.
  rewrite land_ones by lia. unfold u64. destruct (Z.ltb_spec (b mod 128) T).
  - replace ((b mod 128 - T) mod 2 ^ 64) with (b mod 128 - T + 2 ^ 64) by (apply (Z.mod_unique _ _ (-1)); lia). symmetry. apply (Z.mod_unique _ _ (2 ^ 34 - 1)); lia.
  - rewrite (Z.mod_small (b mod 128 - T) (2 ^ 64)) by lia. apply Z.mod_small. lia.
Qed.
Lemma len_rev_cons {A} (x : A) l : len (x :: rev l) = 1 + len l.
Proof. unfold len. cbn [List.length]. rewrite rev_length. lia. Qed.
Lemma skipn_skipn' {A} (a b : nat) (l : list A) : skipn b (skipn a l) = skipn (a + b) l.
Proof. revert l. induction a as [|a IH]; intros [|x l]; try reflexivity; [now rewrite !skipn_nil|apply IH]. Qed.
(** C113: in a REDUNDANT record with end offsets of one byte, the byte below
    them ([b]) is taken for the end of the first virtual column.  Unless it
    happens to be the number of bytes of the record's values and the length of that column
    (or the number of bytes, if the column may be NULL), the record is not read, nor is
    the rest of its page. *)
Theorem C113_redundant_refuted : forall rt tm page off cols v more fs b,
  redundant_page page -> user_origin off -> redundant_at page off false fs -> List.length cols = List.length fs -> (3 <= List.length cols)%nat ->
  (List.length (cols ++ v :: more) <= 40)%nat -> c_type v = 6 -> 0 < c_len v <= 8 ->
  nth_error page (Z.to_nat (off - 7 - zlen fs)) = Some b ->
  b mod 128 <> zlen (rbody fs) + c_len v -> (b mod 128 = zlen (rbody fs) -> c_null v = false) ->
  parsePage_record rt tm page off (cols ++ v :: more) = ([], Ok None)
  /\ (forall fuel supremum, off < 16378 -> off <> supremum -> parsePage_loop (S fuel) rt tm page supremum off (cols ++ v :: more) = ([], Ok ([], cols ++ v :: more)))
  /\ (linked false page (infimum false) off -> forall fuel, parsePage (S fuel) rt tm page (cols ++ v :: more) false 0 = ([], Ok ([], cols ++ v :: more))).
Proof.
  intros rt tm page off cols v more fs b HP Hu0 Hat Hlf Hn3 Hn Ht Hlv Hbyte H1 H2. pose proof HP as [Hpi Hcp]. pose proof Hu0 as Hu. unfold user_origin in Hu.
  pose proof Hpi as [Hpl Hpb]. change (@zlen) with (@len) in *. assert (Hfb : len (rbody fs) < 2 ^ 7) by (destruct Hat as (? & ? & ? & ? & ? & ? & ? & Hat); exact Hat).
  assert (Hbody : len (body (map plain fs)) = len (rbody fs)) by now rewrite body_plain.
  assert (B : 0 <= b < 256) by (rewrite Forall_forall in Hpb; apply (Hpb b (nth_error_In _ _ Hbyte))).
  rewrite app_length in Hn. cbn [List.length] in Hn. pose proof (len_nonneg (rbody fs)) as H0.
  assert (E0 : parsePage_record rt tm page off (cols ++ v :: more) = ([], Ok None)).
  { unfold parsePage_record. rewrite slice_from_ok by lia. rewrite wbind_lift.
    destruct (page_format page Hpi) as [_ [E _]]. rewrite E. clear E. rewrite wbind_lift. replace (128 <=? nth 42 page 0) with false by lia. change (0 =? 0) with true. cbv iota.
    destruct (offsets_extra page off fs (List.length (cols ++ v :: more)) b Hpb Hat) as (x & y & z & E); [rewrite app_length; cbn [List.length]; lia|rewrite app_length; lia|lia|rewrite app_length; cbn [List.length]; lia| |].
    { replace (off - (6 + len fs + 1)) with (off - 7 - len fs) by lia. apply index_some; [unfold len in *; lia|exact Hbyte]. }
    rewrite E. clear E. cbn [bind]. rewrite wbind_lift. cbn beta iota. set (os := [0; x; y] ++ _).
    assert (Hos : holds os (map plain fs)) by (unfold holds, os; eauto).
    change 0 with (Z.of_nat 0) at 1. rewrite (check_more os (map plain fs) Hos) with (i := 0%nat); [reflexivity|lia|cbn [skipn]; now rewrite map_length|lia|].
    rewrite map_length. cbn [checkFieldSize]. assert (Hfx : col_fixed v = c_len v) by (unfold col_fixed, GetFixedLength; rewrite Ht; reflexivity). rewrite Hfx. replace (c_len v =? 0) with false by lia. cbn [negb].
    unfold os. rewrite (size_extra fs x y b z) by lia. cbn [bind]. rewrite Hbody. pose proof (Z.mod_pos_bound b 128 ltac:(lia)) as HM.
    destruct (Z.ltb_spec (b mod 128) (len (rbody fs))).
    - replace (2 ^ 30 + b mod 128 - len (rbody fs) =? 0) with false by lia. cbn [andb]. replace (2 ^ 30 + b mod 128 - len (rbody fs) =? c_len v) with false by lia. reflexivity.
    - replace ((b mod 128 - len (rbody fs) =? 0) && c_null v) with false by (destruct (Z.eqb_spec (b mod 128 - len (rbody fs)) 0) as [X|X]; [rewrite H2 by lia|]; reflexivity).
      replace (b mod 128 - len (rbody fs) =? c_len v) with false by lia. reflexivity. }
  split; [exact E0|]. split.
  - intros fuel sup X1 X2. cbn [parsePage_loop]. change (16384 - 6) with 16378. replace (off <? 16378) with true by lia. replace (off =? sup) with false by lia. cbn [negb andb]. rewrite E0. reflexivity.
  - intros HL fuel. apply (page_rejected rt tm page (cols ++ v :: more) off); [exact HP|exact Hu0|exact HL|exact E0|lia].
Qed.
Print Assumptions C113_redundant_refuted.
(** ... and if it happens to be that number, the bytes behind the record are
    taken for the virtual column. *)
Theorem C113_chance_refuted : forall rt tm page off cols ls v lv fs b w after row,
  redundant_page page -> redundant_at page off false fs -> Forall2 describes cols ls -> Forall2 rfits ls fs -> (3 <= List.length cols)%nat ->
  nth_error page (Z.to_nat (off - 7 - zlen fs)) = Some b -> 7 + zlen fs <= off -> b < 128 ->
  skipn (Z.to_nat (off + zlen (rbody fs))) page = w ++ after -> describes v lv -> l_fixed lv = Some (zlen w) -> b = zlen (rbody fs) + zlen w ->
  row_of rt after (cols ++ [v]) (ls ++ [lv]) (map as_filler fs ++ [FBytes w]) row ->
  parsePage_record rt tm page off (cols ++ [v]) = (remarks (cols ++ [v]) (map as_filler fs ++ [FBytes w]), Ok (Some row)).
Proof.
  intros rt tm page off cols ls v lv fs b w after row HP Hat HD HF H3 Hbyte Hoff Hb Hw HV HL Eb HR. change (@zlen) with (@len) in *.
  pose proof HP as [[Hpl _] _]. change (@zlen) with (@len) in Hpl.
  assert (Hat' : redundant_at page off false (fs ++ [RBytes w]) /\ skipn (Z.to_nat (off + len (rbody (fs ++ [RBytes w])))) page = after).
  { destruct Hat as (pre & header & post & Hp & Hh & Hbit & Ho & Hlt). change (@zlen) with (@len) in *. cbv zeta iota in *. rewrite len_rev in Ho.
    assert (Hel : len (ends (2 ^ 7) 0 fs) = len fs) by (unfold len; now rewrite ends_length). rewrite Hel in Ho.
    pose proof (len_nonneg fs) as N1. pose proof (len_nonneg (rbody fs)) as N2.
    assert (Hpost : post = w ++ after).
    { rewrite <- Hw, Hp. replace (pre ++ rev (ends (2 ^ 7) 0 fs) ++ header ++ rbody fs ++ post) with ((pre ++ rev (ends (2 ^ 7) 0 fs) ++ header ++ rbody fs) ++ post) by (now rewrite <- !app_assoc).
      symmetry. apply skipn_app_exact. rewrite !app_length, rev_length, ends_length. unfold len in *. lia. }
    destruct pre as [|b0 pre _] using rev_ind; [change (len (@nil Z)) with 0 in Ho; lia|]. rewrite len_app in Ho. change (len [b0]) with 1 in Ho.
    assert (b0 = b).
    { rewrite Hp, <- !app_assoc in Hbyte. rewrite nth_error_app2 in Hbyte by (unfold len in *; lia). replace (Z.to_nat (off - 7 - len fs) - List.length pre)%nat with 0%nat in Hbyte by (unfold len in *; lia).
      cbn in Hbyte. now injection Hbyte. }
    assert (Hrb : rbody (fs ++ [RBytes w]) = rbody fs ++ w) by (unfold rbody; rewrite flat_map_app; cbn [flat_map rcontent]; now rewrite app_nil_r).
    rewrite Hrb, len_app. split.
    - exists pre, header, after. change (@zlen) with (@len). cbv zeta iota. rewrite ends_app. cbn [ends rcontent]. rewrite Z.add_0_l. change (@zlen) with (@len). rewrite <- Eb, rev_app_distr. cbn [rev app].
      split; [rewrite Hp, Hpost, Hrb; subst b0; rewrite <- !app_assoc; reflexivity|]. split; [exact Hh|]. split; [exact Hbit|].
      rewrite Hrb, len_app, len_rev_cons. lia.
    - rewrite Z.add_assoc. rewrite Z2Nat.inj_add by (pose proof (len_nonneg w); lia). rewrite <- skipn_skipn', Hw. apply skipn_app_exact. unfold len. lia. }
  destruct Hat' as [Hat' Hafter].
  replace (map as_filler fs ++ [FBytes w]) with (map as_filler (fs ++ [RBytes w])) in * by (rewrite map_app; reflexivity).
  apply (C37_redundant_null_partial rt tm page off false (cols ++ [v]) (ls ++ [lv]) (fs ++ [RBytes w]) row HP Hat').
  - apply Forall2_app; [exact HD|constructor; [exact HV|constructor]].
  - apply Forall2_app; [exact HF|constructor; [unfold rfits; rewrite HL; reflexivity|constructor]].
  - rewrite app_length. lia.
  - change (@zlen) with (@len). rewrite Hafter. exact HR.
Qed.
Print Assumptions C113_chance_refuted.
(** * End offsets of two bytes *)
Lemma low_fifteen w : 0 <= w < 65536 ->
  Z.land (let o := if Z.land w 32768 =? 0 then w else Z.lor (Z.ldiff w 32768) (2 ^ 31) in if Z.land o 16384 =? 0 then o else Z.lor (Z.ldiff o 32768) (2 ^ 30)) 65535 = w mod 2 ^ 15.
Proof.
  intro H. cbv zeta. assert (A : forall x, Z.land (Z.lor x (2 ^ 30)) 65535 = Z.land x 65535) by (intro x; rewrite Z.land_lor_distr_l; change (Z.land (2 ^ 30) 65535) with 0; apply Z.lor_0_r).
  change 32768 with (2 ^ 15). rewrite land_pow2, (ldiff_pow2 w), testbit_high by lia. destruct (Z.leb_spec (2 ^ 15) w).
  - change (2 ^ 15 =? 0) with false. cbv iota. rewrite lor31 by lia. set (r := w - 2 ^ 15). assert (Hr : 0 <= r < 2 ^ 15) by (unfold r; lia).
    assert (E : Z.land (r + 2 ^ 31) 65535 = r) by (change 65535 with (2 ^ 16 - 1); rewrite land_ones by lia; lia).
    replace (w mod 2 ^ 15) with r by (unfold r; lia). destruct (_ =? 0); [exact E|]. rewrite A, ldiff_pow2, testbit_div by lia.
    replace ((r + 2 ^ 31) / 2 ^ 15) with 65536 by lia. change (Z.odd 65536) with false. cbv iota. exact E.
  - change (0 =? 0) with true. cbv iota. assert (E : Z.land w 65535 = w) by (apply land_16; lia). replace (w mod 2 ^ 15) with w by lia. destruct (_ =? 0); [exact E|].
    rewrite A, ldiff_pow2, testbit_high by lia. replace (2 ^ 15 <=? w) with false by lia. exact E.
Qed.
Lemma offsets_extra2 page off fs n : all_bytes page -> redundant_at page off true fs -> (List.length fs < n)%nat -> (3 <= n)%nat -> len page < 2 ^ 62 ->
  2 * Z.of_nat n + 6 <= off <= len page ->
  exists x y z, ibRecInitOffsetsOld page off (zeros (n * 2)) n = Ok ([0; x; y] ++ entries 0 (map plain fs) ++ field page (off - (6 + 2 * len fs + 2)) 2 mod 2 ^ 15 :: z).
Proof.
  intros Hpb (pre & header & post & Hp & Hh & Hbit & Hoff & Hb) Hle Hn Hpl Hob. change (@zlen) with (@len) in *. cbv zeta iota in *.
  set (offsets := flat_map (be 2) (rev (ends (2 ^ 15) 0 fs))) in *.
  assert (Hd : page = (pre ++ offsets) ++ header ++ (rbody fs ++ post)) by (rewrite Hp, <- !app_assoc; reflexivity).
  assert (Hlens : 0 <= len pre /\ 0 <= len offsets /\ 0 <= len (rbody fs) /\ 0 <= len post) by (repeat split; apply len_nonneg).
  assert (Hplen : len page = len pre + len offsets + 6 + len (rbody fs) + len post) by (rewrite Hp, !len_app, Hh; lia).
  unfold ibRecInitOffsetsOld. replace (zeros (n * 2)) with ([0; 0; 0] ++ zeros (n + (n - 3))).
  2:{ change [0; 0; 0] with (zeros 3). rewrite <- zeros_split. f_equal. lia. }
  set (tail := zeros _) at 1. change ([0; 0; 0] ++ tail) with ([0; 0] ++ 0 :: tail). rewrite set_index_app by reflexivity. cbn [bind].
  change ([0; 0] ++ 0 :: tail) with ([0] ++ 0 :: 0 :: tail). rewrite set_index_app by reflexivity. cbn [bind].
  assert (Hflag : RecGet1byteOffsFlag page off = Ok 0).
  { unfold RecGet1byteOffsFlag, RecGetBitField1. rewrite u64_id by lia.
    assert (Hi : index page (off - 3) = Ok (nth 3 header 0)).
    { replace (off - 3) with (len (pre ++ offsets) + Z.of_nat 3) by (rewrite len_app; lia). rewrite Hd. apply index_from_app. apply nth_error_nth'. unfold len in Hh. lia. }
    destruct (slice_index _ _ _ Hi) as [E1 [t E2]]. rewrite E1. cbn [bind]. rewrite E2, mrf1_cons. cbn [bind]. change 1 with (2 ^ 1 - 1) at 1. rewrite land_ones by lia. change (2 ^ 1) with 2. rewrite Hbit. reflexivity. }
  rewrite Hflag. cbn [bind]. change ([0] ++ Z.of_nat n :: 0 :: tail) with ([0; Z.of_nat n] ++ 0 :: tail).
  assert (Hent : map (fun j => len (rbody (firstn (S j) fs))) (seq 0 (List.length fs)) = entries 0 (map plain fs)) by (rewrite plain_entries; apply map_ext; intro; lia).
  change (negb (0 =? 0)) with false. cbv iota. rewrite set_index_app by reflexivity. cbn [bind].
  set (x := 6 + _). change ([0; Z.of_nat n] ++ x :: tail) with ([0; Z.of_nat n; x] ++ tail). unfold tail.
  set (k := (n - List.length fs - 1)%nat). replace (offsetsOld2 n) with (offsetsOld2 (List.length fs + S k)) by (f_equal; unfold k; lia). rewrite old2_split.
  change 0 with (Z.of_nat 0) at 1. replace (n + (n - 3))%nat with (List.length fs + (S k + (n - 3)))%nat by (unfold k; lia).
  rewrite (old2_loop page off fs Hb); [|intros i f Hf|lia|reflexivity].
  - cbn [bind]. rewrite Hent. rewrite app_assoc. cbn [offsetsOld2]. unfold Rec2GetFieldEndInfo at 1. fold (len fs). rewrite Z.add_0_l. rewrite u64_id by (unfold len in *; lia).
    rewrite (read2 page _ Hpb) by (unfold len in *; lia). cbn [bind]. cbv zeta. set (w := field page _ 2).
    assert (B : 0 <= w < 65536) by (exact (field_bound page _ 2 Hpb)).
    set (os0 := [0; Z.of_nat n; x] ++ entries 0 (map plain fs)). assert (L0 : len os0 = 3 + len fs) by (unfold os0, len; rewrite app_length, entries_len, map_length; cbn [List.length]; lia).
    pose proof (low_fifteen w B) as LF. cbv zeta in LF. rewrite LF. cbn [plus zeros repeat]. rewrite set_index_app by lia. cbn [bind].
    change (repeat 0 (k + (n - 3))) with (zeros (k + (n - 3))).
    replace (os0 ++ w mod 2 ^ 15 :: zeros (k + (n - 3))) with ((os0 ++ [w mod 2 ^ 15]) ++ zeros (k + (n - 3))) by (rewrite <- app_assoc; reflexivity).
    destruct (old2_any page off k (len fs + 1) (os0 ++ [w mod 2 ^ 15]) (n - 3)) as [vs [_ E]].
    + intros j Hj. apply read2_any; [assumption|lia|unfold len in *; lia|unfold k, len in *; lia].
    + rewrite len_app, L0. change (len [w mod 2 ^ 15]) with 1. lia.
    + rewrite E. exists (Z.of_nat n), x, (vs ++ zeros (n - 3)). unfold os0. now rewrite <- !app_assoc.
  - unfold Rec2GetFieldEndInfo.
    pose proof (ends_nth (2 ^ 15) fs 0 i f Hf) as He. rewrite Z.add_0_l in He.
    set (e := len (rbody (firstn (S i) fs)) + _) in *.
    apply nth_error_split in He as (l1 & l2 & El & Hl1).
    assert (Hall : len l1 + 1 + len l2 = len fs) by (unfold len; rewrite <- (ends_length (2 ^ 15) fs 0), El, app_length; cbn [List.length]; lia).
    assert (Hlo : len offsets = 2 * len fs) by (unfold offsets; rewrite flat_be2_len, len_rev; unfold len; rewrite ends_length; reflexivity).
    assert (Eoff : offsets = flat_map (be 2) (rev l2) ++ be 2 e ++ flat_map (be 2) (rev l1)).
    { unfold offsets. rewrite El, rev_app_distr. cbn [rev]. rewrite <- app_assoc, flat_map_app. cbn [app flat_map]. reflexivity. }
    pose proof (len_nonneg l1). pose proof (len_nonneg l2). rewrite u64_id by (unfold len in *; lia).
    replace page with ((pre ++ flat_map (be 2) (rev l2)) ++ be 2 e ++ (flat_map (be 2) (rev l1) ++ header ++ rbody fs ++ post)) by (rewrite Hp, Eoff, <- !app_assoc; reflexivity).
    rewrite slice_from_app_eq by (rewrite len_app, flat_be2_len, len_rev; unfold len in *; lia).
    cbn [bind]. apply mrf2_be. pose proof (rbody_firstn_le fs (S i)). pose proof (len_nonneg (rbody (firstn (S i) fs))). unfold e. change (256 ^ 2) with 65536. destruct f; lia.
Qed.
Lemma size_extra2 fs x y e z : len (body (map plain fs)) < 2 ^ 15 -> 0 <= e < 2 ^ 15 -> (0 < List.length fs)%nat ->
  RecOffsNthSize ([0; x; y] ++ entries 0 (map plain fs) ++ e :: z) (Z.of_nat (List.length fs))
  = Ok (if e <? len (body (map plain fs)) then 2 ^ 30 + e - len (body (map plain fs)) else e - len (body (map plain fs))).
Proof.
  intros Hb HB Hn. unfold RecOffsNthSize. replace (Z.of_nat (List.length fs) =? 0) with false by lia.
  change ([0; x; y] ++ entries 0 (map plain fs) ++ e :: z) with ([0; x] ++ y :: entries 0 (map plain fs) ++ e :: z). rewrite slice_from_app_eq by reflexivity. cbn [bind].
  set (n := List.length fs) in *. set (T := len (body (map plain fs))) in *.
  assert (HT : exists E', entries 0 (map plain fs) = E' ++ [T] /\ List.length E' = (n - 1)%nat).
  { rewrite plain_entries. replace (seq 0 (List.length fs)) with (seq 0 (n - 1) ++ [(0 + (n - 1))%nat]) by (rewrite <- seq_S; f_equal; unfold n in *; lia). rewrite map_app. cbn [map]. eexists. split; [f_equal; f_equal|rewrite map_length, seq_length; reflexivity].
    unfold T. rewrite body_plain. replace (S (0 + (n - 1)))%nat with (List.length fs) by (unfold n in *; lia). rewrite firstn_all. lia. }
  destruct HT as [E' [HE HL]]. rewrite HE. change (y :: (E' ++ [T]) ++ e :: z) with ((y :: E' ++ [T]) ++ [e] ++ z).
  replace (1 + Z.of_nat n) with (len (y :: E' ++ [T]) + Z.of_nat 0) by (unfold len; cbn [List.length]; rewrite app_length; cbn [List.length]; lia).
  rewrite (index_from_app _ [e] z 0 (e)) by reflexivity. cbn [bind].
  replace ((y :: E' ++ [T]) ++ [e] ++ z) with ((y :: E') ++ [T] ++ (e :: z)) by (cbn [app]; rewrite <- app_assoc; reflexivity).
  replace (Z.of_nat n) with (len (y :: E') + Z.of_nat 0) by (unfold len; cbn [List.length]; lia).
  rewrite (index_from_app _ [T] _ 0 T) by reflexivity. cbn [bind]. f_equal. pose proof (len_nonneg (body (map plain fs))) as HT0. fold T in HT0.
  rewrite land_ones by lia. unfold u64. destruct (Z.ltb_spec (e) T).
  - replace ((e - T) mod 2 ^ 64) with (e - T + 2 ^ 64) by (apply (Z.mod_unique _ _ (-1)); lia). symmetry. apply (Z.mod_unique _ _ (2 ^ 34 - 1)); lia.
  - rewrite (Z.mod_small (e - T) (2 ^ 64)) by lia. apply Z.mod_small. lia.
Qed.
(** C113: in a REDUNDANT record with end offsets of two bytes, the two bytes
    below them is taken for the end of the first virtual column.  Unless it
    happens to be the number of bytes of the record's values and the length of that column
    (or the number of bytes, if the column may be NULL), the record is not read, nor is
    the rest of its page. *)
Theorem C113_wide_refuted : forall rt tm page off cols v more fs e,
  redundant_page page -> user_origin off -> redundant_at page off true fs -> List.length cols = List.length fs -> (3 <= List.length cols)%nat ->
  (List.length (cols ++ v :: more) <= 40)%nat -> c_type v = 6 -> 0 < c_len v <= 8 ->
  e = field page (off - 8 - 2 * zlen fs) 2 mod 2 ^ 15 ->
  e <> zlen (rbody fs) + c_len v -> (e = zlen (rbody fs) -> c_null v = false) ->
  parsePage_record rt tm page off (cols ++ v :: more) = ([], Ok None)
  /\ (forall fuel supremum, off < 16378 -> off <> supremum -> parsePage_loop (S fuel) rt tm page supremum off (cols ++ v :: more) = ([], Ok ([], cols ++ v :: more)))
  /\ (linked false page (infimum false) off -> forall fuel, parsePage (S fuel) rt tm page (cols ++ v :: more) false 0 = ([], Ok ([], cols ++ v :: more))).
Proof.
  intros rt tm page off cols v more fs e HP Hu0 Hat Hlf Hn3 Hn Ht Hlv Hbyte H1 H2. pose proof HP as [Hpi Hcp]. pose proof Hu0 as Hu. unfold user_origin in Hu.
  pose proof Hpi as [Hpl Hpb]. change (@zlen) with (@len) in *. assert (Hfb : len (rbody fs) < 2 ^ 14) by (destruct Hat as (? & ? & ? & ? & ? & ? & ? & Hat); exact Hat).
  assert (Hbody : len (body (map plain fs)) = len (rbody fs)) by now rewrite body_plain.
  assert (B : 0 <= e < 2 ^ 15) by (subst e; apply Z.mod_pos_bound; lia).
  rewrite app_length in Hn. cbn [List.length] in Hn. pose proof (len_nonneg (rbody fs)) as H0.
  assert (E0 : parsePage_record rt tm page off (cols ++ v :: more) = ([], Ok None)).
  { unfold parsePage_record. rewrite slice_from_ok by lia. rewrite wbind_lift.
    destruct (page_format page Hpi) as [_ [E _]]. rewrite E. clear E. rewrite wbind_lift. replace (128 <=? nth 42 page 0) with false by lia. change (0 =? 0) with true. cbv iota.
    destruct (offsets_extra2 page off fs (List.length (cols ++ v :: more)) Hpb Hat) as (x & y & z & E); [rewrite app_length; cbn [List.length]; lia|rewrite app_length; lia|lia|rewrite app_length; cbn [List.length]; lia|].
    replace (off - (6 + 2 * len fs + 2)) with (off - 8 - 2 * len fs) in E by lia. rewrite <- Hbyte in E.
    rewrite E. clear E. cbn [bind]. rewrite wbind_lift. cbn beta iota. set (os := [0; x; y] ++ _).
    assert (Hos : holds os (map plain fs)) by (unfold holds, os; eauto).
    change 0 with (Z.of_nat 0) at 1. rewrite (check_more os (map plain fs) Hos) with (i := 0%nat); [reflexivity|lia|cbn [skipn]; now rewrite map_length|lia|].
    rewrite map_length. cbn [checkFieldSize]. assert (Hfx : col_fixed v = c_len v) by (unfold col_fixed, GetFixedLength; rewrite Ht; reflexivity). rewrite Hfx. replace (c_len v =? 0) with false by lia. cbn [negb].
    unfold os. rewrite (size_extra2 fs x y e z) by lia. cbn [bind]. rewrite Hbody.
    destruct (Z.ltb_spec (e) (len (rbody fs))).
    - replace (2 ^ 30 + e - len (rbody fs) =? 0) with false by lia. cbn [andb]. replace (2 ^ 30 + e - len (rbody fs) =? c_len v) with false by lia. reflexivity.
    - replace ((e - len (rbody fs) =? 0) && c_null v) with false by (destruct (Z.eqb_spec (e - len (rbody fs)) 0) as [X|X]; [rewrite H2 by lia|]; reflexivity).
      replace (e - len (rbody fs) =? c_len v) with false by lia. reflexivity. }
  split; [exact E0|]. split.
  - intros fuel sup X1 X2. cbn [parsePage_loop]. change (16384 - 6) with 16378. replace (off <? 16378) with true by lia. replace (off =? sup) with false by lia. cbn [negb andb]. rewrite E0. reflexivity.
  - intros HL fuel. apply (page_rejected rt tm page (cols ++ v :: more) off); [exact HP|exact Hu0|exact HL|exact E0|lia].
Qed.
Print Assumptions C113_wide_refuted.
(** A record with an id, 5, and a column n, 8, behind the supremum record: in a
    table with a virtual INT column besides, nothing of its page is printed.
    With another byte below it (25, as the values take 21 bytes) the number
    made of the next four bytes is read. *)
Definition vo_cols : list Column := [dcol "id" 6 3 4 false; dcol "DB_TRX_ID" 0 0 6 false; dcol "DB_ROLL_PTR" 0 0 7 false; dcol "n" 6 3 4 false].
Definition vo_lays : list layout := [fixed 4; fixed 6; fixed 7; fixed 4].
Definition vo_row : list rstored := [RBytes [128; 0; 0; 5]; RBytes (repeat 1 6); RBytes (repeat 2 7); RBytes [128; 0; 0; 8]].
Definition vo_middle (b : Z) : list Z := 125 :: repeat 0 13 ++ b :: rev (ends (2 ^ 7) 0 vo_row) ++ [0; 0; 0; 1; 0; 0] ++ rbody vo_row ++ [128; 0; 0; 9].
Lemma vo_page b : In b [0; 25] -> redundant_page (page_of 0 (vo_middle b)) /\ redundant_at (page_of 0 (vo_middle b)) 125 false vo_row /\ linked false (page_of 0 (vo_middle b)) (infimum false) 125
  /\ nth_error (page_of 0 (vo_middle b)) (Z.to_nat (125 - 7 - zlen vo_row)) = Some b.
Proof.
  intro Hb. assert (HB : 0 <= b < 256) by (cbn in Hb; lia). split.
  - destruct (page_of_image 0 (vo_middle b)) as [H1 H2]; [lia| |cbn; lia|split; [exact H1|rewrite H2; lia]]. cbn in Hb. destruct Hb as [<-|[<-|[]]]; apply bytes_check; reflexivity.
  - split; [|split; reflexivity]. exists (repeat 0 42 ++ [0] ++ repeat 0 57 ++ 125 :: repeat 0 13 ++ [b]), [0; 0; 0; 1; 0; 0], ([128; 0; 0; 9] ++ repeat 0 (Z.to_nat (16284 - zlen (vo_middle b)))).
    cbv zeta. split; [unfold page_of, vo_middle; rewrite <- !app_assoc; cbn [app]; rewrite <- !app_assoc; reflexivity|]. repeat split.
Qed.
Example C113_redundant_case : let v := dcol "v" 6 3 4 true in
  (forall rt tm fuel, parsePage (S fuel) rt tm (page_of 0 (vo_middle 0)) (vo_cols ++ [v]) false 0 = ([], Ok ([], vo_cols ++ [v])))
  /\ forall rt tm, exists row, parsePage_record rt tm (page_of 0 (vo_middle 25)) 125 (vo_cols ++ [v]) = ([], Ok (Some row)) /\ nth_error (map c_value row) 4 = Some (VInt 9).
Proof.
  intro v. split.
  - intros rt tm fuel. destruct (vo_page 0) as (P1 & P2 & P3 & P4); [now left|].
    refine (proj2 (proj2 (C113_redundant_refuted rt tm (page_of 0 (vo_middle 0)) 125 vo_cols v [] vo_row 0 P1 _ P2 _ _ _ _ _ P4 _ _)) P3 fuel); try reflexivity; try (unfold user_origin; lia); cbn; lia.
  - intros rt tm. destruct (vo_page 25) as (P1 & P2 & _ & P4); [now right; left|]. eexists. split.
    + change (@nil bytes) with (remarks (vo_cols ++ [v]) (map as_filler vo_row ++ [FBytes [128; 0; 0; 9]])).
      apply (C113_chance_refuted rt tm _ 125 vo_cols vo_lays v (mkLayout true (Some 4) false) vo_row 25 [128; 0; 0; 9] (repeat 0 (Z.to_nat (16284 - zlen (vo_middle 25))))); try assumption; try reflexivity; try (cbn; lia).
      * unfold vo_cols, vo_lays. repeat (apply Forall2_cons; [split; [reflexivity|cbn; lia]|]). constructor.
      * repeat (apply Forall2_cons; [reflexivity|]). constructor.
      * split; [reflexivity|cbn; lia].
      * unfold vo_cols, vo_row. cbn [map app as_filler].
        do 5 (eapply row_quiet; [discriminate|reflexivity|]). constructor.
    + reflexivity.
Qed.
(** The same record with end offsets of two bytes, and nothing but 0 below them. *)
Definition vo_middle2 : list Z := 130 :: repeat 0 13 ++ [0; 0] ++ flat_map (be 2) (rev (ends (2 ^ 15) 0 vo_row)) ++ [0; 0; 0; 0; 0; 0] ++ rbody vo_row ++ [128; 0; 0; 9].
Example C113_wide_case : forall rt tm fuel, let v := dcol "v" 6 3 4 true in
  parsePage (S fuel) rt tm (page_of 0 vo_middle2) (vo_cols ++ [v]) false 0 = ([], Ok ([], vo_cols ++ [v])).
Proof.
  intros rt tm fuel v.
  assert (P1 : redundant_page (page_of 0 vo_middle2)) by (destruct (page_of_image 0 vo_middle2) as [H1 H2]; [lia|apply bytes_check; reflexivity|cbn; lia|split; [exact H1|rewrite H2; lia]]).
  assert (P2 : redundant_at (page_of 0 vo_middle2) 130 true vo_row).
  { exists (repeat 0 42 ++ [0] ++ repeat 0 57 ++ 130 :: repeat 0 13 ++ [0; 0]), [0; 0; 0; 0; 0; 0], ([128; 0; 0; 9] ++ repeat 0 (Z.to_nat (16284 - zlen vo_middle2))).
    cbv zeta. split; [unfold page_of, vo_middle2; rewrite <- !app_assoc; cbn [app]; rewrite <- !app_assoc; reflexivity|]. repeat split. }
  refine (proj2 (proj2 (C113_wide_refuted rt tm (page_of 0 vo_middle2) 130 vo_cols v [] vo_row 0 P1 _ P2 _ _ _ _ _ _ _ _)) _ fuel); try reflexivity; try (unfold user_origin; lia); cbn; lia.
Qed.
