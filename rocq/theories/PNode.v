(** Proofs about the pages above the leaves of the dictionary's trees: the
    tool reads them too, and stops at their first record. *)
From Coq Require Import ZifyBool.
From Verif Require Import GoBase Utils Ibdata SpecInno SpecText SpecSql SpecRecord SpecRow SpecPage PBase PWire PValue PRec PPage.
Local Open Scope list_scope.
Ltac Zify.zify_post_hook ::= Z.div_mod_to_equations.

(** * Records with more columns than expected *)
Lemma ends_app nb a : forall from b, ends nb from (a ++ b) = ends nb from a ++ ends nb (from + len (rbody a)) b.
Proof.
  induction a as [|f a IH]; intros from b; cbn [app ends].
  - unfold rbody. cbn. now rewrite Z.add_0_r.
  - rewrite IH. change (rbody (f :: a)) with (rcontent f ++ rbody a). rewrite len_app, Z.add_assoc. reflexivity.
Qed.
Lemma redundant_prefix page off wide front extra : redundant_at page off wide (front ++ extra) -> redundant_at page off wide front.
Proof.
  intros (pre & header & post & H). cbv zeta in H. destruct H as [Hp [H1 [H2 [H3 H4]]]].
  assert (Hb : rbody (front ++ extra) = rbody front ++ rbody extra) by (unfold rbody; apply flat_map_app).
  pose proof (len_nonneg (rbody extra)) as Hn.
  rewrite Hb in Hp, H4. change (@zlen) with (@len) in *. rewrite len_app in H4.
  destruct wide.
  - rewrite ends_app, rev_app_distr, flat_map_app in Hp, H3.
    exists (pre ++ flat_map (be 2) (rev (ends (2 ^ 15) (0 + len (rbody front)) extra))), header, (rbody extra ++ post).
    cbv zeta. change (@zlen) with (@len). split; [rewrite Hp, <- !app_assoc; reflexivity|].
    split; [exact H1|]. split; [exact H2|]. rewrite !len_app in *. lia.
  - rewrite ends_app, rev_app_distr in Hp, H3.
    exists (pre ++ rev (ends (2 ^ 7) (0 + len (rbody front)) extra)), header, (rbody extra ++ post).
    cbv zeta. change (@zlen) with (@len). split; [rewrite Hp, <- !app_assoc; reflexivity|].
    split; [exact H1|]. split; [exact H2|]. rewrite !len_app in *. lia.
Qed.
(** * End offsets beyond the record's own *)
Lemma old1_split d off b : forall a i os, offsetsOld1 (a + b) i d off os = (os1 <- offsetsOld1 a i d off os ;; offsetsOld1 b (i + Z.of_nat a) d off os1).
Proof.
  induction a as [|a IH]; intros i os; [cbn [plus offsetsOld1 bind]; now rewrite Z.add_0_r|]. cbn [plus offsetsOld1].
  destruct (Rec1GetFieldEndInfo d off i) as [e| |]; cbn [bind]; [|reflexivity|reflexivity]. destruct (set_index _ _ _) as [os1| |]; cbn [bind]; [|reflexivity|reflexivity].
  rewrite IH. replace (i + 1 + Z.of_nat a) with (i + Z.of_nat (S a)) by lia. reflexivity.
Qed.
Lemma old2_split d off b : forall a i os, offsetsOld2 (a + b) i d off os = (os1 <- offsetsOld2 a i d off os ;; offsetsOld2 b (i + Z.of_nat a) d off os1).
Proof.
  induction a as [|a IH]; intros i os; [cbn [plus offsetsOld2 bind]; now rewrite Z.add_0_r|]. cbn [plus offsetsOld2].
  destruct (Rec2GetFieldEndInfo d off i) as [e| |]; cbn [bind]; [|reflexivity|reflexivity]. destruct (set_index _ _ _) as [os1| |]; cbn [bind]; [|reflexivity|reflexivity].
  rewrite IH. replace (i + 1 + Z.of_nat a) with (i + Z.of_nat (S a)) by lia. reflexivity.
Qed.
Lemma old1_any d off : forall n i pre m, (forall j, i <= j < i + Z.of_nat n -> exists e, Rec1GetFieldEndInfo d off j = Ok e) -> len pre = 3 + i ->
  exists vs, List.length vs = n /\ offsetsOld1 n i d off (pre ++ zeros (n + m)) = Ok (pre ++ vs ++ zeros m).
Proof.
  induction n as [|n IH]; intros i pre m Hr Hp; [exists []; split; reflexivity|]. cbn [offsetsOld1]. destruct (Hr i ltac:(lia)) as [e ->]. cbn [bind]. cbv zeta.
  set (v := Z.land _ 65535). cbn [plus zeros repeat]. rewrite set_index_app by (symmetry; exact Hp). cbn [bind]. change (repeat 0 (n + m)) with (zeros (n + m)).
  replace (pre ++ v :: zeros (n + m)) with ((pre ++ [v]) ++ zeros (n + m)) by (rewrite <- app_assoc; reflexivity).
  destruct (IH (i + 1) (pre ++ [v]) m) as [vs [H1 H2]]; [intros j Hj; apply Hr; lia|rewrite len_app; change (len [v]) with 1; lia|].
  exists (v :: vs). split; [cbn [List.length]; now rewrite H1|]. rewrite H2, <- app_assoc. reflexivity.
Qed.
Lemma old2_any d off : forall n i pre m, (forall j, i <= j < i + Z.of_nat n -> exists e, Rec2GetFieldEndInfo d off j = Ok e) -> len pre = 3 + i ->
  exists vs, List.length vs = n /\ offsetsOld2 n i d off (pre ++ zeros (n + m)) = Ok (pre ++ vs ++ zeros m).
Proof.
  induction n as [|n IH]; intros i pre m Hr Hp; [exists []; split; reflexivity|]. cbn [offsetsOld2]. destruct (Hr i ltac:(lia)) as [e ->]. cbn [bind]. cbv zeta.
  set (v := Z.land _ 65535). cbn [plus zeros repeat]. rewrite set_index_app by (symmetry; exact Hp). cbn [bind]. change (repeat 0 (n + m)) with (zeros (n + m)).
  replace (pre ++ v :: zeros (n + m)) with ((pre ++ [v]) ++ zeros (n + m)) by (rewrite <- app_assoc; reflexivity).
  destruct (IH (i + 1) (pre ++ [v]) m) as [vs [H1 H2]]; [intros j Hj; apply Hr; lia|rewrite len_app; change (len [v]) with 1; lia|].
  exists (v :: vs). split; [cbn [List.length]; now rewrite H1|]. rewrite H2, <- app_assoc. reflexivity.
Qed.
Lemma read1_any page off j : all_bytes page -> off <= len page < 2 ^ 62 -> 0 <= j -> 0 <= off - (6 + j + 1) -> exists e, Rec1GetFieldEndInfo page off j = Ok e.
Proof.
  intros Hb Hl Hj Ho. unfold Rec1GetFieldEndInfo. rewrite u64_id by lia. destruct (index_total page (off - (6 + j + 1)) ltac:(lia)) as [v Hv].
  destruct (slice_index _ _ _ Hv) as [E1 [t E2]]. rewrite E1. cbn [bind]. rewrite E2. eexists. apply mrf1_cons.
Qed.
Lemma read2_any page off j : all_bytes page -> off <= len page < 2 ^ 62 -> 0 <= j -> 0 <= off - (6 + 2 * j + 2) -> exists e, Rec2GetFieldEndInfo page off j = Ok e.
Proof.
  intros Hb Hl Hj Ho. unfold Rec2GetFieldEndInfo. rewrite u64_id by lia. set (p := off - (6 + 2 * j + 2)) in *.
  rewrite (read2 page p Hb) by lia. eexists. reflexivity.
Qed.

(** the record's own end offsets are read whatever the number of columns *)
Lemma offsets_short page off wide fs n : all_bytes page -> redundant_at page off wide fs -> (List.length fs <= n)%nat -> (3 <= n)%nat -> len page < 2 ^ 62 ->
  2 * Z.of_nat n + 6 <= off <= len page ->
  exists os, ibRecInitOffsetsOld page off (zeros (n * 2)) n = Ok os /\ holds os (map plain fs).
Proof.
  intros Hpb (pre & header & post & Hp & Hh & Hbit & Hoff & Hb) Hle Hn Hpl Hob. change (@zlen) with (@len) in *.
  set (offsets := if wide then _ else _) in *.
  assert (Hd : page = (pre ++ offsets) ++ header ++ (rbody fs ++ post)) by (rewrite Hp, <- !app_assoc; reflexivity).
  assert (Hlens : 0 <= len pre /\ 0 <= len offsets /\ 0 <= len (rbody fs) /\ 0 <= len post) by (repeat split; apply len_nonneg).
  assert (Hplen : len page = len pre + len offsets + 6 + len (rbody fs) + len post).
  { rewrite Hp, !len_app, Hh. lia. }
  unfold ibRecInitOffsetsOld.
  replace (zeros (n * 2)) with ([0; 0; 0] ++ zeros (n + (n - 3))).
  2:{ change [0; 0; 0] with (zeros 3). rewrite <- zeros_split. f_equal. lia. }
  set (tail := zeros _) at 1.
  change ([0; 0; 0] ++ tail) with ([0; 0] ++ 0 :: tail). rewrite set_index_app by reflexivity. cbn [bind].
  change ([0; 0] ++ 0 :: tail) with ([0] ++ 0 :: 0 :: tail). rewrite set_index_app by reflexivity. cbn [bind].
  assert (Hflag : RecGet1byteOffsFlag page off = Ok (if wide then 0 else 1)).
  { unfold RecGet1byteOffsFlag, RecGetBitField1. rewrite u64_id by lia.
    assert (Hi : index page (off - 3) = Ok (nth 3 header 0)).
    { replace (off - 3) with (len (pre ++ offsets) + Z.of_nat 3) by (rewrite len_app; lia). rewrite Hd.
      apply index_from_app. apply nth_error_nth'. unfold len in Hh. lia. }
    destruct (slice_index _ _ _ Hi) as [E1 [t E2]]. rewrite E1. cbn [bind]. rewrite E2, mrf1_cons. cbn [bind].
    change 1 with (2 ^ 1 - 1). rewrite land_ones by lia. change (2 ^ 1) with 2. rewrite Hbit. destruct wide; reflexivity. }
  rewrite Hflag. cbn [bind].
  change ([0] ++ Z.of_nat n :: 0 :: tail) with ([0; Z.of_nat n] ++ 0 :: tail).
  assert (Hent : map (fun j => len (rbody (firstn (S j) fs))) (seq 0 (List.length fs)) = entries 0 (map plain fs)).
  { rewrite plain_entries. apply map_ext. intro. lia. }
  destruct wide.
  - change (negb (0 =? 0)) with false. cbv iota. rewrite set_index_app by reflexivity. cbn [bind].
    set (x := 6 + _). change ([0; Z.of_nat n] ++ x :: tail) with ([0; Z.of_nat n; x] ++ tail). unfold tail.
    replace (offsetsOld2 n) with (offsetsOld2 (List.length fs + (n - List.length fs))) by (f_equal; lia). rewrite old2_split.
    change 0 with (Z.of_nat 0) at 1. replace (n + (n - 3))%nat with (List.length fs + ((n - List.length fs) + (n - 3)))%nat by lia.
    rewrite (old2_loop page off fs Hb); [|intros i f Hf|lia|reflexivity].
    + cbn [bind]. rewrite Hent. rewrite app_assoc.
      destruct (old2_any page off (n - List.length fs) (0 + Z.of_nat (List.length fs)) ([0; Z.of_nat n; x] ++ entries 0 (map plain fs)) (n - 3)) as [vs [_ E]].
      { intros j Hj. apply read2_any; [assumption|lia|lia|lia]. }
      { rewrite len_app. unfold len at 2. rewrite entries_len, map_length. reflexivity. }
      rewrite E. eexists. split; [reflexivity|]. exists (Z.of_nat n), x, (vs ++ zeros (n - 3)). now rewrite <- app_assoc.
    + unfold Rec2GetFieldEndInfo.
      pose proof (ends_nth (2 ^ 15) fs 0 i f Hf) as He. rewrite Z.add_0_l in He.
      set (e := len (rbody (firstn (S i) fs)) + _) in *.
      apply nth_error_split in He as (l1 & l2 & El & Hl1).
      assert (Hall : len l1 + 1 + len l2 = len fs).
      { unfold len. rewrite <- (ends_length (2 ^ 15) fs 0), El, app_length. cbn [List.length]. lia. }
      assert (Hlo : len offsets = 2 * len fs).
      { unfold offsets. rewrite flat_be2_len, len_rev. unfold len. rewrite ends_length. reflexivity. }
      assert (Eoff : offsets = flat_map (be 2) (rev l2) ++ be 2 e ++ flat_map (be 2) (rev l1)).
      { unfold offsets. rewrite El, rev_app_distr. cbn [rev]. rewrite <- app_assoc, flat_map_app. cbn [app flat_map]. reflexivity. }
      pose proof (len_nonneg l1). pose proof (len_nonneg l2).
      rewrite u64_id by (unfold len in *; lia).
      replace page with ((pre ++ flat_map (be 2) (rev l2)) ++ be 2 e ++ (flat_map (be 2) (rev l1) ++ header ++ rbody fs ++ post)).
      2:{ rewrite Hp, Eoff. rewrite <- !app_assoc. reflexivity. }
      rewrite slice_from_app_eq.
      2:{ rewrite len_app, flat_be2_len, len_rev. unfold len in *. lia. }
      cbn [bind]. apply mrf2_be.
      pose proof (rbody_firstn_le fs (S i)). pose proof (len_nonneg (rbody (firstn (S i) fs))). unfold e. change (256 ^ 2) with 65536. destruct f; lia.
  - change (negb (1 =? 0)) with true. cbv iota. rewrite set_index_app by reflexivity. cbn [bind].
    set (x := 6 + _). change ([0; Z.of_nat n] ++ x :: tail) with ([0; Z.of_nat n; x] ++ tail). unfold tail.
    replace (offsetsOld1 n) with (offsetsOld1 (List.length fs + (n - List.length fs))) by (f_equal; lia). rewrite old1_split.
    change 0 with (Z.of_nat 0) at 1. replace (n + (n - 3))%nat with (List.length fs + ((n - List.length fs) + (n - 3)))%nat by lia.
    rewrite (old1_loop page off fs Hb); [|intros i f Hf|lia|reflexivity].
    + cbn [bind]. rewrite Hent. rewrite app_assoc.
      destruct (old1_any page off (n - List.length fs) (0 + Z.of_nat (List.length fs)) ([0; Z.of_nat n; x] ++ entries 0 (map plain fs)) (n - 3)) as [vs [_ E]].
      { intros j Hj. apply read1_any; [assumption|lia|lia|lia]. }
      { rewrite len_app. unfold len at 2. rewrite entries_len, map_length. reflexivity. }
      rewrite E. eexists. split; [reflexivity|]. exists (Z.of_nat n), x, (vs ++ zeros (n - 3)). now rewrite <- app_assoc.
    + unfold Rec1GetFieldEndInfo.
      pose proof (ends_nth (2 ^ 7) fs 0 i f Hf) as He. rewrite Z.add_0_l in He.
      set (e := len (rbody (firstn (S i) fs)) + _) in *.
      assert (Hlo : len offsets = len fs) by (unfold offsets; rewrite len_rev; unfold len; now rewrite ends_length).
      assert (Hi : (i < List.length fs)%nat) by (apply nth_error_Some; congruence).
      rewrite u64_id by (unfold len in *; lia).
      assert (Hidx : index page (off - (6 + Z.of_nat i + 1)) = Ok e).
      { replace (off - (6 + Z.of_nat i + 1)) with (len pre + len (ends (2 ^ 7) 0 fs) - 1 - Z.of_nat i).
        - rewrite Hp. unfold offsets. now apply index_rev_app.
        - unfold len at 2. rewrite ends_length. fold (len fs). lia. }
      destruct (slice_index _ _ _ Hidx) as [E1 [t E2]]. rewrite E1. cbn [bind]. rewrite E2. apply mrf1_cons.
Qed.

(** * A record with the wrong size in a column is rejected *)
Lemma check_wrong os fs : holds os fs -> len (body fs) < 2 ^ 30 ->
  forall lk l lrest rest f extra i cols, skipn i fs = rest ++ f :: extra -> Forall2 describes cols (lk ++ l :: lrest) -> Forall2 fits0 lk rest ->
  (exists n, l_fixed l = Some n /\ len (content f) <> n) -> l_nullable l = false ->
  checkFieldSize os (Z.of_nat i) cols = Ok false.
Proof.
  intros Ho Hb. induction lk as [|l0 lk IH]; intros l lrest rest f extra i cols Hs HC HF Hw Hnn; inversion HF as [|? f0 ? rest' Hf HF']; subst; inversion HC as [|c ? cols' ? Hc HC']; subst.
  - cbn [app] in Hs. destruct (skipn_cons_nth fs i f extra Hs) as [Hnth _]. cbn [checkFieldSize].
    rewrite (nth_size os fs i f Ho Hnth Hb). cbn [bind]. pose proof (describes_fixed c l Hc) as Hfx. destruct Hw as [n [El Hw]]. rewrite El in Hfx.
    destruct Hfx as [E Hn]. rewrite E. replace (n =? 0) with false by lia. cbn [negb]. destruct Hc as [Hcn Hcl]. rewrite El in Hcl. rewrite Hcn, Hnn, andb_false_r.
    replace (c_len c =? 0) with false by lia. replace (len (content f) =? n) with false by lia. reflexivity.
  - cbn [app] in Hs. destruct (skipn_cons_nth fs i f0 _ Hs) as [Hnth Hskip]. cbn [checkFieldSize]. replace (Z.of_nat i + 1) with (Z.of_nat (S i)) by lia.
    rewrite (IH l lrest rest' f extra (S i) cols' Hskip HC' HF' Hw Hnn).
    rewrite (nth_size os fs i f0 Ho Hnth Hb). cbn [bind]. pose proof (describes_fixed c l0 Hc) as Hfx.
    destruct (l_fixed l0) as [n|] eqn:El.
    + destruct Hfx as [E Hn]. rewrite E. replace (n =? 0) with false by (symmetry; now apply Z.eqb_neq). cbn [negb].
      destruct f0 as [|b|b]; cbn [fits0 content] in *; rewrite ?El in Hf.
      * destruct Hc as [Hc _]. rewrite Hc, Hf. reflexivity.
      * rewrite Hf. replace (n =? 0) with false by (symmetry; now apply Z.eqb_neq).
        rewrite Z.eqb_refl. cbn [negb andb]. rewrite andb_false_r. reflexivity.
      * contradiction.
    + rewrite Hfx. reflexivity.
Qed.
Lemma record_rejected rt tm page off wide cols lk l lrest key child extra : redundant_page page -> user_origin off ->
  redundant_at page off wide (key ++ child :: extra) -> Forall2 describes cols (lk ++ l :: lrest) -> Forall2 rfits lk key ->
  (exists n, l_fixed l = Some n /\ len (rcontent child) <> n) -> l_nullable l = false ->
  (List.length (key ++ child :: extra) <= List.length cols <= 50)%nat -> (3 <= List.length cols)%nat ->
  parsePage_record rt tm page off cols = ([], Ok None).
Proof.
  intros [Hpi Hcp] Hu Hat HC HF Hw Hnn Hl Hl3. unfold user_origin in Hu. pose proof Hpi as [Hpl Hpb]. change (zlen page) with (len page) in Hpl.
  unfold parsePage_record. rewrite slice_from_ok by lia. rewrite wbind_lift.
  destruct (page_format page Hpi) as [_ [E _]]. rewrite E. clear E. rewrite wbind_lift.
  replace (128 <=? nth 42 page 0) with false by lia. change (0 =? 0) with true. cbv iota.
  destruct (offsets_short page off wide _ (List.length cols) Hpb Hat) as [os [E Hos]]; [lia|lia|lia|lia|].
  rewrite E. cbn [bind]. rewrite wbind_lift. cbn beta iota.
  assert (Hbl : len (body (map plain (key ++ child :: extra))) < 2 ^ 30).
  { rewrite body_plain. destruct (redundant_skip _ _ _ _ Hat) as [_ [_ [_ [H _]]]]. lia. }
  pose proof (check_wrong os _ Hos Hbl lk l lrest (map plain key) (plain child) (map plain extra) 0 cols) as Hc. change (Z.of_nat 0) with 0 in Hc.
  rewrite Hc; [reflexivity|cbn [skipn]; now rewrite map_app|exact HC| |exact Hw|exact Hnn].
  clear - HF. induction HF as [|l0 f ls fs H _ IH]; cbn [map]; constructor; [|exact IH].
  unfold rfits in H. unfold fits0, plain. destruct (l_fixed l0); [exact H|exact I].
Qed.
Lemma page_rejected rt tm page cols off fuel : redundant_page page -> user_origin off -> linked false page (infimum false) off ->
  parsePage_record rt tm page off cols = ([], Ok None) -> (0 < fuel)%nat ->
  parsePage fuel rt tm page cols false 0 = ([], Ok ([], cols)).
Proof.
  intros Hp Hu Hl Hr Hf. rewrite (parsePage_start fuel rt tm page cols false) by exact Hp. cbv iota. unfold user_origin in Hu.
  replace (field page 99 2) with off by (symmetry; exact Hl).
  destruct fuel as [|fuel]; [lia|]. cbn [parsePage_loop supremum].
  replace ((off <? 16384 - 6) && negb (off =? 116)) with true by lia. rewrite Hr. reflexivity.
Qed.
