(** C136: REDUNDANT records with a column stored outside the record. *)
From Coq Require Import ZifyBool.
From Verif Require Import GoBase Utils Ibdata SpecInno SpecText SpecSql SpecRecord SpecRow SpecPage SpecOutside PBase PWire PRec PPage PFile PNode PropRec.
Local Open Scope list_scope.
Local Open Scope Z_scope.

(** * The end offsets *)
Definition word_entry (w : Z) : Z :=
  let offs := if Z.land w 32768 =? 0 then w else Z.lor (Z.ldiff w 32768) (2 ^ 31) in
  let offs := if Z.land offs 16384 =? 0 then offs else Z.lor (Z.ldiff offs 32768) (2 ^ 30) in
  Z.land offs 65535.
Lemma skipn_nth {A} (l : list A) : forall i x, nth_error l i = Some x -> skipn i l = x :: skipn (S i) l.
Proof. induction l as [|y l IH]; intros [|i] x H; try discriminate; [now injection H as ->|]. cbn [skipn nth_error] in *. now apply IH. Qed.
Lemma old2_words d off ws : (forall i w, nth_error ws i = Some w -> Rec2GetFieldEndInfo d off (Z.of_nat i) = Ok w) ->
  forall n i pre m, (i + n = List.length ws)%nat -> len pre = 3 + Z.of_nat i ->
  offsetsOld2 n (Z.of_nat i) d off (pre ++ zeros (n + m)) = Ok (pre ++ map word_entry (skipn i ws) ++ zeros m).
Proof.
  intro Hr. induction n as [|n IH]; intros i pre m Hi Hpre.
  - rewrite skipn_all2 by lia. reflexivity.
  - cbn [offsetsOld2]. destruct (nth_error ws i) as [w|] eqn:Ew; [|apply nth_error_None in Ew; lia]. rewrite (Hr i w Ew). cbn [bind]. cbv zeta. fold (word_entry w).
    cbn [plus zeros repeat]. rewrite set_index_app by lia. cbn [bind]. change (repeat 0 (n + m)) with (zeros (n + m)).
    replace (pre ++ word_entry w :: zeros (n + m)) with ((pre ++ [word_entry w]) ++ zeros (n + m)) by (rewrite <- app_assoc; reflexivity).
    replace (Z.of_nat i + 1) with (Z.of_nat (S i)) by lia. rewrite IH; [|lia|rewrite len_app; change (len [word_entry w]) with 1; lia].
    rewrite <- app_assoc. do 2 f_equal. rewrite (skipn_nth ws i w Ew). reflexivity.
Qed.
Lemma word_plain e : 0 <= e < 2 ^ 14 -> word_entry e = e.
Proof.
  intro H. unfold word_entry. change 32768 with (2 ^ 15). change 16384 with (2 ^ 14). rewrite (land_pow2 e 15), testbit_high by lia. replace (2 ^ 15 <=? e) with false by lia. change (0 =? 0) with true. cbv iota zeta.
  rewrite (land_pow2 e 14), testbit_high by lia. replace (2 ^ 14 <=? e) with false by lia. change (0 =? 0) with true. cbv iota. apply land_16. lia.
Qed.
Lemma word_null e : 0 <= e < 2 ^ 14 -> word_entry (e + 2 ^ 15) = e.
Proof.
  intro H. unfold word_entry. change 32768 with (2 ^ 15). change 16384 with (2 ^ 14). rewrite (land_pow2 (e + 2 ^ 15) 15), ldiff_pow2, testbit_high by lia. replace (2 ^ 15 <=? e + 2 ^ 15) with true by lia. change (2 ^ 15 =? 0) with false. cbv iota zeta.
  replace (e + 2 ^ 15 - 2 ^ 15) with e by lia. rewrite lor31 by lia. rewrite (land_pow2 (e + 2 ^ 31) 14), testbit_div by lia. replace ((e + 2 ^ 31) / 2 ^ 14) with 131072 by lia. change (Z.odd 131072) with false. cbv iota. change (0 =? 0) with true. cbv iota.
  change 65535 with (2 ^ 16 - 1). rewrite land_ones by lia. lia.
Qed.
Lemma word_outside e : 0 <= e < 2 ^ 14 -> word_entry (e + 2 ^ 14) = e + 2 ^ 14.
Proof.
  intro H. unfold word_entry. change 32768 with (2 ^ 15). change 16384 with (2 ^ 14). rewrite (land_pow2 (e + 2 ^ 14) 15), testbit_high by lia. replace (2 ^ 15 <=? e + 2 ^ 14) with false by lia. change (0 =? 0) with true. cbv iota zeta.
  rewrite (land_pow2 (e + 2 ^ 14) 14), testbit_high by lia. replace (2 ^ 14 <=? e + 2 ^ 14) with true by lia. change (2 ^ 14 =? 0) with false. cbv iota.
  rewrite (ldiff_pow2 (e + 2 ^ 14) 15), testbit_high by lia. replace (2 ^ 15 <=? e + 2 ^ 14) with false by lia. cbv iota.
  rewrite lor30 by lia. change 65535 with (2 ^ 16 - 1). rewrite land_ones by lia. lia.
Qed.
Lemma words_ends fs : forall from, 0 <= from -> from + len (rbody fs) < 2 ^ 14 ->
  map word_entry (ends (2 ^ 15) from fs) = entries from (map plain fs).
Proof.
  induction fs as [|f fs IH]; intros from H0 H; [reflexivity|]. cbn [rbody flat_map] in H. fold (rbody fs) in H. rewrite len_app in H.
  pose proof (len_nonneg (rcontent f)). pose proof (len_nonneg (rbody fs)).
  cbn [ends map plain entries entry content]. change (zlen (rcontent f)) with (len (rcontent f)). rewrite IH by lia. f_equal.
  destruct f; [apply word_null; lia|apply word_plain; lia].
Qed.
Lemma ends_bound fs : forall from, 0 <= from -> from + len (rbody fs) < 2 ^ 14 -> Forall (fun w => 0 <= w < 65536) (ends (2 ^ 15) from fs).
Proof.
  induction fs as [|f fs IH]; intros from H0 H; [constructor|]. cbn [rbody flat_map] in H. fold (rbody fs) in H. rewrite len_app in H.
  pose proof (len_nonneg (rcontent f)). pose proof (len_nonneg (rbody fs)).
  cbn [ends]. change (zlen (rcontent f)) with (len (rcontent f)). constructor; [destruct f; lia|apply IH; lia].
Qed.

(** the offsets the tool works with *)
Definition outside_entries (front : list rstored) (b : list Z) (rest : list rstored) : list Z :=
  entries 0 (map plain front) ++ (len (rbody front) + len b + 2 ^ 14) :: entries (len (rbody front) + len b) (map plain rest).
Lemma outside_words front b rest : len (rbody front) + len b + len (rbody rest) < 2 ^ 14 ->
  map word_entry (outside_ends front b rest) = outside_entries front b rest.
Proof.
  intro H. pose proof (len_nonneg (rbody front)). pose proof (len_nonneg b). pose proof (len_nonneg (rbody rest)).
  unfold outside_ends, outside_entries. cbv zeta. change (@zlen) with (@len). rewrite map_app. cbn [map]. rewrite !words_ends, word_outside by lia. reflexivity.
Qed.
Lemma outside_bound front b rest : len (rbody front) + len b + len (rbody rest) < 2 ^ 14 -> Forall (fun w => 0 <= w < 65536) (outside_ends front b rest).
Proof.
  intro H. pose proof (len_nonneg (rbody front)). pose proof (len_nonneg b). pose proof (len_nonneg (rbody rest)).
  unfold outside_ends. cbv zeta. change (@zlen) with (@len). apply Forall_app. split; [apply ends_bound; lia|]. constructor; [lia|apply ends_bound; lia].
Qed.
Lemma outside_offsets page off front b rest n : all_bytes page -> outside_at page off front b rest -> n = S (List.length front + List.length rest) -> (3 <= n)%nat -> len page < 2 ^ 63 ->
  ibRecInitOffsetsOld page off (zeros (n * 2)) n
  = Ok ([0; Z.of_nat n; 6 + 2 * Z.of_nat n] ++ outside_entries front b rest ++ zeros (n - 3)).
Proof.
  intros Hpb (pre & header & post & Hp & Hh & Hbit & Hoff & Hb) En Hn Hpl. change (@zlen) with (@len) in *.
  set (ws := outside_ends front b rest) in *. set (offsets := flat_map (be 2) (rev ws)) in *.
  assert (Hws : List.length ws = n) by (unfold ws, outside_ends; cbv zeta; rewrite app_length; cbn [List.length]; rewrite !ends_length; lia).
  assert (Hlo : len offsets = 2 * Z.of_nat n) by (unfold offsets; rewrite flat_be2_len, len_rev; unfold len; now rewrite Hws).
  assert (Hoff' : off = len pre + len offsets + 6) by (unfold len in *; lia).
  set (body1 := rbody front ++ b ++ rbody rest ++ post) in *.
  assert (Hd : page = (pre ++ offsets) ++ header ++ body1) by (rewrite Hp, <- !app_assoc; reflexivity).
  pose proof (len_nonneg pre). pose proof (len_nonneg body1).
  assert (Hplen : len page = len pre + len offsets + 6 + len body1) by (rewrite Hp, !len_app, Hh; lia).
  unfold ibRecInitOffsetsOld.
  replace (zeros (n * 2)) with ([0; 0; 0] ++ zeros (n + (n - 3))).
  2:{ change [0; 0; 0] with (zeros 3). rewrite <- zeros_split. f_equal. lia. }
  set (tail := zeros _) at 1.
  change ([0; 0; 0] ++ tail) with ([0; 0] ++ 0 :: tail). rewrite set_index_app by reflexivity. cbn [bind].
  change ([0; 0] ++ 0 :: tail) with ([0] ++ 0 :: 0 :: tail). rewrite set_index_app by reflexivity. cbn [bind].
  assert (Hflag : RecGet1byteOffsFlag page off = Ok 0).
  { unfold RecGet1byteOffsFlag, RecGetBitField1. rewrite u64_id by lia.
    assert (Hi : index page (off - 3) = Ok (nth 3 header 0)).
    { replace (off - 3) with (len (pre ++ offsets) + Z.of_nat 3) by (rewrite len_app; lia). rewrite Hd.
      apply index_from_app. apply nth_error_nth'. unfold len in Hh. lia. }
    destruct (slice_index _ _ _ Hi) as [E1 [t E2]]. rewrite E1. cbn [bind]. rewrite E2, mrf1_cons. cbn [bind].
    change 1 with (2 ^ 1 - 1). rewrite land_ones by lia. change (2 ^ 1) with 2. rewrite Hbit. reflexivity. }
  rewrite Hflag. cbn [bind]. change (negb (0 =? 0)) with false. cbv iota.
  change ([0] ++ Z.of_nat n :: 0 :: tail) with ([0; Z.of_nat n] ++ 0 :: tail). rewrite set_index_app by reflexivity. cbn [bind].
  set (x := 6 + 2 * Z.of_nat n). change ([0; Z.of_nat n] ++ x :: tail) with ([0; Z.of_nat n; x] ++ tail). unfold tail.
  change 0 with (Z.of_nat 0) at 1. rewrite (old2_words page off ws); [cbn [skipn]; unfold ws; rewrite outside_words by exact Hb; reflexivity| |lia|reflexivity].
  intros i w He. unfold Rec2GetFieldEndInfo.
  assert (Hw : 0 <= w < 65536) by (pose proof (outside_bound front b rest Hb) as HF; rewrite Forall_forall in HF; apply HF; exact (nth_error_In _ _ He)).
  apply nth_error_split in He as (l1 & l2 & El & Hl1).
  assert (Hall : len l1 + 1 + len l2 = Z.of_nat n) by (unfold len; rewrite <- Hws, El, app_length; cbn [List.length]; lia).
  assert (Eoff : offsets = flat_map (be 2) (rev l2) ++ be 2 w ++ flat_map (be 2) (rev l1)).
  { unfold offsets. rewrite El, rev_app_distr. cbn [rev]. rewrite <- app_assoc, flat_map_app. cbn [app flat_map]. reflexivity. }
  pose proof (len_nonneg l1). pose proof (len_nonneg l2).
  rewrite u64_id by (unfold len in *; lia).
  replace page with ((pre ++ flat_map (be 2) (rev l2)) ++ be 2 w ++ (flat_map (be 2) (rev l1) ++ header ++ body1)).
  2:{ rewrite Hp, Eoff. rewrite <- !app_assoc. reflexivity. }
  rewrite slice_from_app_eq.
  2:{ rewrite len_app, flat_be2_len, len_rev. unfold len in *. lia. }
  cbn [bind]. apply mrf2_be. exact Hw.
Qed.

(** * Columns checked and read, part by part *)
Lemma check_app os : forall a b i, checkFieldSize os i a = Ok true -> checkFieldSize os i (a ++ b) = checkFieldSize os (i + len a) b.
Proof.
  induction a as [|c a IH]; intros b i H; [cbn [app]; change (len (@nil Column)) with 0; f_equal; lia|].
  cbn [checkFieldSize app] in *. rewrite len_cons. replace (i + (1 + len a)) with (i + 1 + len a) by lia.
  destruct (negb (col_fixed c =? 0)); [|now apply IH]. destruct (RecOffsNthSize os i) as [v| |]; cbn [bind] in *; try discriminate.
  destruct ((v =? 0) && c_null c); [now apply IH|]. destruct (negb (c_len c =? 0) && negb (v =? col_fixed c)); [discriminate|now apply IH].
Qed.
Lemma fields_app rt o os : forall a b i,
  parseFields rt o os i (a ++ b) = (x <-w parseFields rt o os i a ;; y <-w parseFields rt o os (i + len a) b ;; wret (x ++ y)).
Proof.
  induction a as [|c a IH]; intros b i.
  - cbn [app parseFields]. change (len (@nil Column)) with 0. rewrite Z.add_0_r, wbind_ret. symmetry. destruct (parseFields rt o os i b) as [l [y| |]]; unfold wbind, wret; rewrite ?app_nil_r; reflexivity.
  - cbn [app parseFields]. rewrite wbind_assoc. apply wbind_ext. intro x. rewrite IH, len_cons. replace (i + (1 + len a)) with (i + 1 + len a) by lia.
    rewrite !wbind_assoc. apply wbind_ext. intro y. rewrite wbind_ret, wbind_assoc. apply wbind_ext. intro z. now rewrite wbind_ret.
Qed.
Lemma entries_app a b : forall from, entries from (a ++ b) = entries from a ++ entries (from + len (body a)) b.
Proof.
  induction a as [|f a IH]; intro from; [cbn; f_equal; lia|]. cbn [app entries body flat_map]. fold (body a). rewrite IH, len_app. do 2 f_equal. f_equal. lia.
Qed.
Lemma fits_plain lf front : Forall2 rfits lf front -> Forall2 fits0 lf (map plain front).
Proof.
  induction 1 as [|l f ls fs H _ IH]; cbn [map]; constructor; [|exact IH]. unfold rfits in H. unfold fits0, plain. destruct (l_fixed l); [exact H|exact I].
Qed.

Lemma zeros_len : len (zeros (Z.to_nat 16384)) = 16384.
Proof. unfold len, zeros. rewrite repeat_length. lia. Qed.
Section Outside.
Variables (rt : runtime) (tm : gomap Table) (page : list Z) (off : Z) (front : list rstored) (b : list Z) (rest : list rstored).
Hypothesis Hp : redundant_page page.
Hypothesis Hat : outside_at page off front b rest.
Let n := S (List.length front + List.length rest).
Let os := [0; Z.of_nat n; 6 + 2 * Z.of_nat n] ++ outside_entries front b rest ++ zeros (n - 3).
Let rec := skipn (Z.to_nat off) page.
Definition pseudo (b : list Z) : stored := FBytes (b ++ zeros (Z.to_nat 16384)).
Let fs := map plain front ++ [pseudo b].

Lemma pseudo_len : len (content (pseudo b)) = len b + 2 ^ 14.
Proof. unfold pseudo. cbn [content]. rewrite len_app, zeros_len. reflexivity. Qed.
Lemma outside_rec : exists post, rec = rbody front ++ b ++ rbody rest ++ post /\ 0 < off /\ off + len rec = 16384
  /\ b ++ rbody rest ++ post = skipn (Z.to_nat (off + len (rbody front))) page /\ len (rbody front) + len b + len (rbody rest) < 2 ^ 14.
Proof.
  destruct Hat as (pre & header & post & Ep & Hh & _ & Hoff & Hb). change (@zlen) with (@len) in *.
  set (offsets := flat_map (be 2) (rev (outside_ends front b rest))) in *.
  assert (Hlo : len offsets = 2 * (len front + 1 + len rest)).
  { unfold offsets. rewrite flat_be2_len, len_rev. unfold outside_ends. cbv zeta. rewrite len_app, len_cons. unfold len. rewrite !ends_length. lia. }
  assert (El : off = len (pre ++ offsets ++ header)) by (rewrite !len_app, Hh; lia).
  pose proof (len_nonneg pre). pose proof (len_nonneg front). pose proof (len_nonneg rest).
  assert (Ed : page = (pre ++ offsets ++ header) ++ rbody front ++ b ++ rbody rest ++ post) by (rewrite Ep, <- !app_assoc; reflexivity).
  exists post. unfold rec. assert (E : skipn (Z.to_nat off) page = rbody front ++ b ++ rbody rest ++ post).
  { rewrite Ed, El, to_nat_len. apply skipn_app_len. }
  split; [exact E|]. split; [lia|]. destruct Hp as [[Hpl _] _]. change (zlen page) with (len page) in Hpl.
  split; [rewrite E; rewrite Ed, len_app in Hpl; lia|]. split; [|exact Hb].
  set (z := b ++ rbody rest ++ post) in *. rewrite Ed, app_assoc, El, <- len_app, to_nat_len. symmetry. apply skipn_app_len.
Qed.
Lemma outside_holds : holds os fs /\ holds os (map plain front) /\ len (body fs) < 2 ^ 30 /\ len (body (map plain front)) < 2 ^ 30 /\ len (body (map plain front)) = len (rbody front).
Proof.
  destruct outside_rec as (post & _ & _ & _ & _ & Hb). pose proof (len_nonneg (rbody front)). pose proof (len_nonneg b). pose proof (len_nonneg (rbody rest)).
  assert (El : len (body fs) = len (rbody front) + (len b + 2 ^ 14)).
  { unfold fs, body. rewrite flat_map_app, len_app. fold (body (map plain front)). rewrite body_plain. cbn [flat_map]. rewrite app_nil_r, pseudo_len. reflexivity. }
  assert (Ee : outside_entries front b rest = entries 0 fs ++ entries (len (rbody front) + len b) (map plain rest)).
  { unfold outside_entries, fs. rewrite entries_app, <- app_assoc, body_plain. cbn [entries app]. unfold pseudo. cbn [entry]. rewrite len_app, zeros_len. do 2 f_equal. change (2 ^ 14) with 16384. lia. }
  split; [|split; [|split; [lia|split; rewrite body_plain; lia]]]; unfold holds, os.
  - exists (Z.of_nat n), (6 + 2 * Z.of_nat n), (entries (len (rbody front) + len b) (map plain rest) ++ zeros (n - 3)). now rewrite Ee, <- !app_assoc.
  - unfold outside_entries. do 3 eexists. rewrite <- app_assoc. reflexivity.
Qed.
Lemma outside_start cols : List.length cols = n -> (3 <= n)%nat -> parsePage_record rt tm page off cols
  = (ok <-w wlift (checkFieldSize os 0 cols) ;;
     if ok : bool then c <-w parseRecords rt rec os cols ;; _ <-w wlift (RecOffsSize os) ;; wret (Some c) else wret None).
Proof.
  intros Hl H3. destruct outside_rec as (post & _ & Ho & Hr & _ & _). pose proof Hp as [Hpi Hcp]. pose proof Hpi as [Hpl Hpb]. change (zlen page) with (len page) in Hpl.
  pose proof (len_nonneg rec). unfold parsePage_record. rewrite slice_from_ok by lia. rewrite wbind_lift.
  destruct (page_format page Hpi) as [_ [E _]]. rewrite E. clear E. rewrite wbind_lift.
  replace (128 <=? nth 42 page 0) with false by lia. change (0 =? 0) with true. cbv iota.
  rewrite Hl, (outside_offsets page off front b rest n Hpb Hat eq_refl H3 ltac:(lia)). cbn [bind]. rewrite wbind_lift. reflexivity.
Qed.
Lemma outside_check cf lf c l : Forall2 describes cf lf -> Forall2 rfits lf front -> describes c l -> l_fixed l = None ->
  checkFieldSize os 0 (cf ++ [c]) = Ok true.
Proof.
  intros HC HF Hc Hl. destruct outside_holds as (H1 & _ & H2 & _).
  apply (check_size os fs H1 H2 (cf ++ [c]) (lf ++ [l]) fs 0 eq_refl).
  - apply Forall2_app; [exact HC|]. now constructor.
  - unfold fs. apply Forall2_app; [now apply fits_plain|]. constructor; [|constructor]. unfold fits0, pseudo. now rewrite Hl.
Qed.
Lemma outside_front cf lf : Forall2 describes cf lf -> Forall2 rfits lf front ->
  parseFields rt rec os 0 cf = row_values rt (skipn (Z.to_nat (off + len (rbody front))) page) cf lf (map plain front).
Proof.
  intros HC HF. destruct outside_holds as (_ & H1 & _ & H2 & _). destruct outside_rec as (post & Er & Ho & Hr & Es & _).
  rewrite <- Es. apply (parse_fields rt rec os (map plain front) (b ++ rbody rest ++ post) H1 H2 ltac:(rewrite body_plain; exact Er) ltac:(lia) cf lf (map plain front) 0 eq_refl HC). now apply fits_plain.
Qed.
(** the column itself is skipped *)
Lemma outside_own c : parseField rt rec os (len front) c = wret c.
Proof.
  destruct outside_holds as (H1 & _ & H2 & _ & H3). destruct outside_rec as (post & Er & Ho & Hr & Es & Hb).
  assert (Hn : nth_error fs (List.length front) = Some (pseudo b)) by (unfold fs; rewrite nth_error_app2 by (rewrite map_length; lia); rewrite map_length, Nat.sub_diag; reflexivity).
  unfold parseField, RecGetNthField. change (len front) with (Z.of_nat (List.length front)). rewrite (field_offs os fs _ _ H1 Hn H2). cbn [bind].
  unfold fs. rewrite firstn_app, map_length, Nat.sub_diag, firstn_all2 by (rewrite map_length; lia). cbn [firstn]. rewrite app_nil_r, H3.
  rewrite slice_from_ok by (rewrite Er, !len_app; pose proof (len_nonneg (rbody front)); pose proof (len_nonneg b); pose proof (len_nonneg (rbody rest)); pose proof (len_nonneg post); lia).
  cbn [bind]. rewrite wbind_lift. cbn beta iota. unfold pseudo. fold (pseudo b). rewrite len_skipn.
  2:{ rewrite Er, !len_app. pose proof (len_nonneg (rbody front)); pose proof (len_nonneg b); pose proof (len_nonneg (rbody rest)); pose proof (len_nonneg post); lia. }
  rewrite pseudo_len. pose proof (len_nonneg b). pose proof (len_nonneg (rbody front)). pose proof (len_nonneg (rbody rest)).
  rewrite Z2Nat.id by lia. replace (len rec - len (rbody front) <? len b + 2 ^ 14) with true by lia. replace (len b + 2 ^ 14 =? 4294967295) with false by lia. reflexivity.
Qed.
(** the entries of the column behind it *)
Lemma outside_next r1 rest' : rest = r1 :: rest' ->
  (base <- slice_from os 2 ;; index base (len front + 1)) = Ok (len (rbody front) + len b + 2 ^ 14)
  /\ (base <- slice_from os 2 ;; index base (len front + 2)) = Ok (len (rbody front) + len b + len (rcontent r1)).
Proof.
  intro E. unfold os. set (x := 6 + 2 * Z.of_nat n). set (z := outside_entries front b rest ++ zeros (n - 3)).
  assert (Es : slice_from ([0; Z.of_nat n; x] ++ z) 2 = Ok (x :: z)) by exact (slice_from_app [0; Z.of_nat n] (x :: z)).
  rewrite Es. cbn [bind]. set (e := len (rbody front) + len b).
  assert (Ez : x :: z = (x :: entries 0 (map plain front)) ++ [e + 2 ^ 14; e + len (rcontent r1)] ++ entries (e + len (rcontent r1)) (map plain rest') ++ zeros (n - 3)).
  { unfold z, outside_entries. rewrite E. cbn [map entries plain entry content app]. rewrite <- app_assoc. reflexivity. }
  assert (Hl : len (x :: entries 0 (map plain front)) = len front + 1).
  { rewrite len_cons. unfold len. rewrite entries_len, map_length. lia. }
  rewrite Ez. split.
  - replace (len front + 1) with (len (x :: entries 0 (map plain front)) + Z.of_nat 0) by (rewrite Hl; lia). now apply index_from_app.
  - replace (len front + 2) with (len (x :: entries 0 (map plain front)) + Z.of_nat 1) by (rewrite Hl; lia). now apply index_from_app.
Qed.
(** a column of fixed length behind it is rejected *)
Lemma outside_fixed cf lf c l c1 l1 n1 r1 rest' cr : Forall2 describes cf lf -> Forall2 rfits lf front -> describes c l -> l_fixed l = None ->
  describes c1 l1 -> l_fixed l1 = Some n1 -> rest = r1 :: rest' -> rfits l1 r1 ->
  checkFieldSize os 0 (cf ++ c :: c1 :: cr) = Ok false.
Proof.
  intros HC HF Hc Hl Hc1 Hl1 E Hr1. change (cf ++ c :: c1 :: cr) with (cf ++ [c] ++ (c1 :: cr)). rewrite app_assoc, check_app by now apply (outside_check cf lf c l).
  assert (Ecf : len cf = len front) by (unfold len; rewrite (forall2_length _ _ _ HC), (forall2_length _ _ _ HF); reflexivity).
  rewrite len_app, Ecf. change (len [c]) with 1. rewrite Z.add_0_l. destruct (outside_next r1 rest' E) as [E1 E2]. destruct outside_rec as (post & _ & _ & _ & _ & Hb).
  cbn [checkFieldSize]. unfold RecOffsNthSize. destruct (slice_from os 2) as [base| |]; cbn [bind] in *; try discriminate.
  pose proof (len_nonneg front). replace (len front + 1 =? 0) with false by lia. replace (1 + (len front + 1)) with (len front + 2) by lia. rewrite E1, E2. cbn [bind].
  pose proof (describes_fixed c1 l1 Hc1) as Hfx. rewrite Hl1 in Hfx. destruct Hfx as [Ef Hn1]. rewrite Ef. replace (n1 =? 0) with false by lia. cbn [negb].
  unfold rfits in Hr1. rewrite Hl1 in Hr1. change (zlen (rcontent r1)) with (len (rcontent r1)) in Hr1. rewrite E in Hb. cbn [rbody flat_map] in Hb. rewrite len_app in Hb.
  pose proof (len_nonneg (rbody front)). pose proof (len_nonneg b). pose proof (len_nonneg (flat_map rcontent rest')). pose proof (len_nonneg (rcontent r1)).
  set (v := Z.land _ _). assert (Hv : v = 2 ^ 30 + n1 - 2 ^ 14).
  { unfold v. rewrite land_ones by lia. unfold u64. rewrite Hr1. replace (len (rbody front) + len b + n1 - (len (rbody front) + len b + 2 ^ 14)) with (n1 - 2 ^ 14) by lia. lia. }
  replace (v =? 0) with false by lia. cbn [andb]. destruct Hc1 as [_ Hcl]. rewrite Hl1 in Hcl. replace (c_len c1 =? 0) with false by lia. replace (v =? n1) with false by lia. reflexivity.
Qed.
(** reading the column behind it is out of range *)
Lemma outside_behind r1 rest' c1 : rest = r1 :: rest' -> parseField rt rec os (len front + 1) c1 = ([], Panic).
Proof.
  intro E. destruct (outside_next r1 rest' E) as [E1 E2]. destruct outside_rec as (post & _ & Ho & Hr & _ & Hb).
  unfold parseField, RecGetNthField, RecGetNthFieldOffs. destruct (slice_from os 2) as [base| |]; cbn [bind] in *; try discriminate.
  pose proof (len_nonneg front). replace (len front + 1 =? 0) with false by lia. rewrite E1. cbn [bind]. replace (len front + 1 + 1) with (len front + 2) by lia. rewrite E2. cbn [bind].
  rewrite E in Hb. cbn [rbody flat_map] in Hb. rewrite len_app in Hb.
  pose proof (len_nonneg (rbody front)). pose proof (len_nonneg b). pose proof (len_nonneg (flat_map rcontent rest')). pose proof (len_nonneg (rcontent r1)).
  set (e := len (rbody front) + len b) in *. rewrite (land_ones (e + 2 ^ 14)) by lia. rewrite Z.mod_small by lia.
  destruct (Z.land (e + len (rcontent r1)) (2 ^ 31) =? 0); cbn [bind]; rewrite slice_from_panic by lia; reflexivity.
Qed.
(** what is checked further behind is as if the column were stored inside *)
Lemma outside_beyond i : len front + 2 <= i ->
  RecOffsNthSize os i = RecOffsNthSize ([0; Z.of_nat n; 6 + 2 * Z.of_nat n] ++ entries 0 (map plain (front ++ RBytes b :: rest)) ++ zeros (n - 3)) i.
Proof.
  intro Hi. unfold os, outside_entries. rewrite map_app, entries_app, body_plain. cbn [map entries plain entry content rcontent]. rewrite !Z.add_0_l.
  set (A := entries 0 (map plain front)). set (B := entries _ (map plain rest)).
  assert (HA : len A = len front) by (unfold A, len; rewrite entries_len, map_length; reflexivity).
  unfold RecOffsNthSize. rewrite <- !app_assoc.
  set (x := 6 + 2 * Z.of_nat n). 
  assert (Es : forall y, slice_from ([0; Z.of_nat n; x] ++ A ++ (y :: B) ++ zeros (n - 3)) 2 = Ok (((x :: A) ++ [y]) ++ (B ++ zeros (n - 3)))).
  { intro y. change ([0; Z.of_nat n; x] ++ A ++ (y :: B) ++ zeros (n - 3)) with ([0; Z.of_nat n] ++ x :: A ++ y :: B ++ zeros (n - 3)).
    change 2 with (len [0; Z.of_nat n]). rewrite slice_from_app. f_equal. cbn [app]. rewrite <- app_assoc. reflexivity. }
  rewrite !Es. cbn [bind]. pose proof (len_nonneg front). replace (i =? 0) with false by lia.
  assert (Ei : forall y k, len front + 2 <= k -> index (((x :: A) ++ [y]) ++ (B ++ zeros (n - 3))) k = index (B ++ zeros (n - 3)) (k - (len front + 2))).
  { intros y k Hk. assert (Hl : len ((x :: A) ++ [y]) = len front + 2) by (rewrite len_app, len_cons, HA; change (len [y]) with 1; lia).
    unfold index. rewrite len_app, Hl. set (Z' := B ++ zeros (n - 3)).
    replace ((0 <=? k) && (k <? len front + 2 + len Z')) with ((0 <=? k - (len front + 2)) && (k - (len front + 2) <? len Z')) by lia.
    rewrite nth_error_app2 by (unfold len in *; lia). replace (Z.to_nat k - List.length ((x :: A) ++ [y]))%nat with (Z.to_nat (k - (len front + 2))) by (unfold len in *; lia). reflexivity. }
  rewrite !Ei by lia. reflexivity.
Qed.
End Outside.
Lemma check_same os os' m : (forall i, m <= i -> RecOffsNthSize os i = RecOffsNthSize os' i) ->
  forall cols i, m <= i -> checkFieldSize os i cols = checkFieldSize os' i cols.
Proof.
  intros H. induction cols as [|c cols IH]; intros i Hi; [reflexivity|]. cbn [checkFieldSize]. rewrite H by lia. rewrite !IH by lia. reflexivity.
Qed.

Lemma row_describes rt after cols ls fs r : row_of rt after cols ls fs r -> Forall2 describes cols ls -> Forall2 describes r ls.
Proof. induction 1 as [|c cs l ls fs r _ IH|c cs l ls f fs v bin r _ _ _ IH]; intro HD; inversion HD; subst; constructor; auto. Qed.

(** * The theorems *)
(** C136: false.  Full statement: of a column stored outside the record what
    the record holds is printed, and the other columns and rows are not
    affected.  Proved: as the last column it is left as the descriptor has it,
    and all the columns in front of it are exact. *)
Theorem C136_front_partial : forall rt tm page off front b cf lf c l row,
  redundant_page page -> outside_at page off front b [] ->
  Forall2 describes cf lf -> Forall2 rfits lf front -> describes c l -> l_fixed l = None -> (2 <= List.length cf)%nat ->
  row_of rt (skipn (Z.to_nat (off + zlen (rbody front))) page) cf lf (map as_filler front) row ->
  parsePage_record rt tm page off (cf ++ [c]) = (remarks cf (map as_filler front), Ok (Some (row ++ [c]))).
Proof.
  intros rt tm page off front b cf lf c l row Hp Hat HC HF Hc Hl H2 HR. change (@zlen) with (@len) in HR.
  assert (Ecf : List.length cf = List.length front) by (rewrite (forall2_length _ _ _ HC), (forall2_length _ _ _ HF); reflexivity).
  rewrite (outside_start rt tm page off front b [] Hp Hat) by (rewrite ?app_length; cbn [List.length]; lia).
  rewrite (outside_check page off front b [] Hp Hat cf lf c l HC HF Hc Hl), wbind_lift. cbv iota.
  unfold parseRecords. rewrite fields_app, (outside_front rt page off front b [] Hp Hat cf lf HC HF). change as_filler with plain in *.
  rewrite (row_of_values _ _ _ _ _ _ HR). cbn [parseFields]. rewrite Z.add_0_l. replace (len cf) with (len front) by (unfold len; lia).
  rewrite (outside_own rt page off front b [] Hp Hat c), !wbind_ret.
  set (os := [0; _; _] ++ _). destruct (data_size os (map plain front ++ [pseudo b])) as [v [w [E1 E2]]].
  { destruct front; discriminate. }
  { exists (6 + 2 * Z.of_nat (S (List.length front + 0))), (zeros (S (List.length front + 0) - 3)). unfold os. cbn [List.length].
    assert (El : len (map plain front ++ [pseudo b]) = Z.of_nat (S (List.length front + 0))) by (rewrite len_app, len_map; change (len [pseudo b]) with 1; unfold len; lia).
    rewrite El. unfold outside_entries. rewrite entries_app, body_plain. cbn [map entries]. unfold pseudo. cbn [entry]. rewrite len_app, zeros_len. replace (0 + len (rbody front) + (len b + 16384)) with (len (rbody front) + len b + 2 ^ 14) by (change (2 ^ 14) with 16384; lia). reflexivity. }
  rewrite wbind_assoc, E1, E2. unfold wbind, wret, wlift. cbn. rewrite !app_nil_r. reflexivity.
Qed.
Print Assumptions C136_front_partial.
(** So a row shows the value of the row before. *)
Theorem C136_stale_refuted : forall rt tm page off1 wide fs1 off2 front b cf lf c l row1 c1 row2 fuel,
  redundant_page page -> chain false page (infimum false) [off1; off2] (supremum false) -> user_origin off1 -> user_origin off2 ->
  redundant_at page off1 wide fs1 -> outside_at page off2 front b [] ->
  Forall2 describes (cf ++ [c]) (lf ++ [l]) -> Forall2 rfits (lf ++ [l]) fs1 -> Forall2 rfits lf front -> l_fixed l = None ->
  List.length cf = List.length lf -> (2 <= List.length cf)%nat ->
  row_of rt (skipn (Z.to_nat (off1 + zlen (rbody fs1))) page) (cf ++ [c]) (lf ++ [l]) (map as_filler fs1) (row1 ++ [c1]) ->
  row_of rt (skipn (Z.to_nat (off2 + zlen (rbody front))) page) row1 lf (map as_filler front) row2 -> (2 < fuel)%nat ->
  exists lines, parsePage fuel rt tm page (cf ++ [c]) false 0 = (lines, Ok ([row1 ++ [c1]; row2 ++ [c1]], row2 ++ [c1])).
Proof.
  intros rt tm page off1 wide fs1 off2 front b cf lf c l row1 c1 row2 fuel Hp Hch Hu1 Hu2 H1 H2 HC HF1 HF2 Hl Hlen H3 HR1 HR2 Hfuel.
  assert (HD : Forall2 describes (row1 ++ [c1]) (lf ++ [l])) by exact (row_describes _ _ _ _ _ _ HR1 HC).
  assert (Hlr : List.length row1 = List.length lf) by (apply forall2_length in HD; rewrite !app_length in HD; cbn in HD; lia).
  assert (HD2 : Forall2 describes row1 lf /\ describes c1 l).
  { apply Forall2_app_inv_l in HD as (l1 & l2 & A & B & E). inversion B as [|? ? ? l3 B1 B2]; subst. inversion B2; subst. apply app_inj_tail in E as [-> ->]. now split. }
  destruct HD2 as [HD1 HD2]. eexists. apply (page_live rt tm page false [off1; off2] _ _ (cf ++ [c]) _ fuel 0 Hp Hch); [constructor; [exact Hu1|constructor; [exact Hu2|constructor]]| |cbn; lia].
  eapply dec_cons; [|eapply dec_cons; [|constructor]].
  - apply (C37_redundant_null_partial rt tm page off1 wide (cf ++ [c]) (lf ++ [l]) fs1); try assumption. rewrite app_length. cbn. lia.
  - apply (C136_front_partial rt tm page off2 front b row1 lf c1 l row2); try assumption. lia.
Qed.
Print Assumptions C136_stale_refuted.
(** With a column of fixed length behind it, the record is rejected: its row is
    lost, and all that follow in the page; if it is the first record, no row of
    the page is printed. *)
Theorem C136_lost_refuted : forall rt tm page off front b r1 rest cf lf c l c1 l1 n1 cr fuel,
  redundant_page page -> outside_at page off front b (r1 :: rest) ->
  Forall2 describes cf lf -> Forall2 rfits lf front -> describes c l -> l_fixed l = None ->
  describes c1 l1 -> l_fixed l1 = Some n1 -> rfits l1 r1 -> List.length cr = List.length rest -> (1 <= List.length cf)%nat ->
  parsePage_record rt tm page off (cf ++ c :: c1 :: cr) = ([], Ok None)
  /\ (user_origin off -> linked false page (infimum false) off -> (0 < fuel)%nat ->
      parsePage fuel rt tm page (cf ++ c :: c1 :: cr) false 0 = ([], Ok ([], cf ++ c :: c1 :: cr))).
Proof.
  intros rt tm page off front b r1 rest cf lf c l c1 l1 n1 cr fuel Hp Hat HC HF Hc Hl Hc1 Hl1 Hr1 Hcr H1.
  assert (Ecf : List.length cf = List.length front) by (rewrite (forall2_length _ _ _ HC), (forall2_length _ _ _ HF); reflexivity).
  assert (E : parsePage_record rt tm page off (cf ++ c :: c1 :: cr) = ([], Ok None)).
  { rewrite (outside_start rt tm page off front b (r1 :: rest) Hp Hat) by (rewrite ?app_length; cbn [List.length]; lia).
    rewrite (outside_fixed page off front b (r1 :: rest) Hp Hat cf lf c l c1 l1 n1 r1 rest cr HC HF Hc Hl Hc1 Hl1 eq_refl Hr1), wbind_lift. reflexivity. }
  split; [exact E|]. intros Hu Hk Hf. now apply (page_rejected rt tm page _ off fuel).
Qed.
Print Assumptions C136_lost_refuted.
(** With a column of variable length behind it, decoding the record panics:
    the tool stops, and nothing of this page or of what follows is printed. *)
Theorem C136_crash_refuted : forall rt tm page off front b r1 rest cf lf c l c1 l1 cr lr row fuel,
  redundant_page page -> outside_at page off front b (r1 :: rest) ->
  Forall2 describes cf lf -> Forall2 rfits lf front -> describes c l -> l_fixed l = None ->
  describes c1 l1 -> l_fixed l1 = None -> Forall2 describes cr lr -> Forall2 rfits lr rest -> (1 <= List.length cf)%nat ->
  row_of rt (skipn (Z.to_nat (off + zlen (rbody front))) page) cf lf (map as_filler front) row ->
  parsePage_record rt tm page off (cf ++ c :: c1 :: cr) = (remarks cf (map as_filler front), Panic)
  /\ (user_origin off -> linked false page (infimum false) off -> (0 < fuel)%nat ->
      forall free, parsePage fuel rt tm page (cf ++ c :: c1 :: cr) false free = (remarks cf (map as_filler front), Panic)).
Proof.
  intros rt tm page off front b r1 rest cf lf c l c1 l1 cr lr row fuel Hp Hat HC HF Hc Hl Hc1 Hl1 HCr HFr H1 HR. change (@zlen) with (@len) in HR.
  assert (Ecf : List.length cf = List.length front) by (rewrite (forall2_length _ _ _ HC), (forall2_length _ _ _ HF); reflexivity).
  assert (Ecr : List.length cr = List.length rest) by (rewrite (forall2_length _ _ _ HCr), (forall2_length _ _ _ HFr); reflexivity).
  assert (E : parsePage_record rt tm page off (cf ++ c :: c1 :: cr) = (remarks cf (map as_filler front), Panic)).
  { rewrite (outside_start rt tm page off front b (r1 :: rest) Hp Hat) by (rewrite ?app_length; cbn [List.length]; lia).
    pose proof (outside_check page off front b (r1 :: rest) Hp Hat cf lf c l HC HF Hc Hl) as E1.
    pose proof (outside_beyond front b (r1 :: rest)) as E2.
    pose proof (outside_front rt page off front b (r1 :: rest) Hp Hat cf lf HC HF) as E3.
    pose proof (outside_own rt page off front b (r1 :: rest) Hp Hat c) as E4.
    pose proof (outside_behind rt page off front b (r1 :: rest) Hp Hat r1 rest c1 eq_refl) as E5.
    set (n := S _) in *. set (os := [0; _; _] ++ outside_entries _ _ _ ++ _) in *.
    assert (Ek : checkFieldSize os 0 (cf ++ c :: c1 :: cr) = Ok true).
    { change (cf ++ c :: c1 :: cr) with (cf ++ [c] ++ (c1 :: cr)). rewrite app_assoc, check_app by exact E1.
      cbn [checkFieldSize]. pose proof (describes_fixed c1 l1 Hc1) as Hfx. rewrite Hl1 in Hfx. rewrite Hfx. change (negb (0 =? 0)) with false. cbv iota.
      set (i := 0 + len (cf ++ [c]) + 1). assert (Hi : i = Z.of_nat (List.length front + 2)) by (unfold i; rewrite len_app; change (len [c]) with 1; unfold len; lia).
      rewrite (check_same _ _ _ E2) by (rewrite Hi; unfold len; lia). rewrite Hi.
      assert (Hb : len (body (map plain (front ++ RBytes b :: r1 :: rest))) < 2 ^ 30).
      { destruct (outside_rec page off front b (r1 :: rest) Hp Hat) as (post & _ & _ & _ & _ & Hb). rewrite body_plain. unfold rbody in *. rewrite flat_map_app. cbn [flat_map rcontent] in *. rewrite !len_app in *. lia. }
      apply (check_size _ (map plain (front ++ RBytes b :: r1 :: rest)) ltac:(unfold holds; eauto) Hb cr lr (map plain rest)); [|exact HCr|now apply fits_plain].
      rewrite map_app. cbn [map]. rewrite skipn_app, map_length. rewrite skipn_all2 by (rewrite map_length; lia). replace (List.length front + 2 - List.length front)%nat with 2%nat by lia. reflexivity. }
    rewrite Ek, wbind_lift. cbv iota. unfold parseRecords. rewrite fields_app, E3. change as_filler with plain in *.
    rewrite (row_of_values _ _ _ _ _ _ HR). cbn [parseFields]. rewrite Z.add_0_l. replace (len cf) with (len front) by (unfold len; lia).
    rewrite E4, wbind_ret, E5. unfold wbind, wret, wlift. cbn. rewrite !app_nil_r. reflexivity. }
  split; [exact E|]. intros Hu Hk Hf free. rewrite (parsePage_start fuel rt tm page _ false) by exact Hp. cbv iota. unfold user_origin in Hu.
  replace (field page 99 2) with off by (symmetry; exact Hk). destruct fuel as [|fuel]; [lia|]. cbn [parsePage_loop supremum].
  replace ((off <? 16384 - 6) && negb (off =? 116)) with true by lia. rewrite E. reflexivity.
Qed.
Print Assumptions C136_crash_refuted.
(** For a file: if the first page with rows begins with such a record, not one
    row of the table is printed, whatever the rest of the file holds. *)
Theorem C136_file_refuted : forall rt tm pages page more db tb off front b r1 rest cf lf c l c1 l1 cr lr row fuel,
  Forall page_image pages -> filter (eligible false) (firsts pages) = page :: more -> getTableColumnsFromDict tm db tb = cf ++ c :: c1 :: cr ->
  nth 42 page 0 < 128 -> outside_at page off front b (r1 :: rest) -> user_origin off -> linked false page (infimum false) off ->
  Forall2 describes cf lf -> Forall2 rfits lf front -> describes c l -> l_fixed l = None ->
  describes c1 l1 -> l_fixed l1 = None -> Forall2 describes cr lr -> Forall2 rfits lr rest -> (1 <= List.length cf)%nat ->
  row_of rt (skipn (Z.to_nat (off + zlen (rbody front))) page) cf lf (map as_filler front) row ->
  ParseDataPage (S fuel) rt tm (Some (map IoBytes pages)) db tb false = (remarks cf (map as_filler front), Panic).
Proof.
  intros rt tm pages page more db tb off front b r1 rest cf lf c l c1 l1 cr lr row fuel Hi Hf Hcols Hr Hat Hu Hk HC HF Hc Hl Hc1 Hl1 HCr HFr H1 HR.
  assert (Hfi : Forall page_image (firsts pages)).
  { apply Forall_forall. intros p Hp. apply firsts_incl in Hp. rewrite Forall_forall in Hi. now apply Hi. }
  assert (Hin : In page (firsts pages) /\ eligible false page = true) by (apply filter_In; rewrite Hf; now left). destruct Hin as [Hin He].
  assert (Hp : page_image page) by (rewrite Forall_forall in Hfi; now apply Hfi).
  unfold ParseDataPage. rewrite file_pages by assumption. rewrite wbind_lift. cbv beta iota. rewrite (eligible_filter fuel rt tm db tb false (firsts pages)) by exact Hfi.
  rewrite Hf, Hcols. cbn [map dataPages_loop]. destruct (eligible_selected page false Hp He) as [ph [E1 [E2 E3]]]. rewrite E1, wbind_lift, E3. cbn [as_page pg_orig].
  destruct (C136_crash_refuted rt tm page off front b r1 rest cf lf c l c1 l1 cr lr row (S fuel) (conj Hp Hr) Hat HC HF Hc Hl Hc1 Hl1 HCr HFr H1 HR) as [_ E].
  rewrite (E Hu Hk ltac:(lia)). reflexivity.
Qed.
Print Assumptions C136_file_refuted.

(** Pages meeting the hypotheses: an ordinary record and one whose text is
    stored outside; and such a record with an INT or a text column behind. *)
Definition ofront (k : Z) : list rstored := [RBytes [128; 0; 0; k]; RBytes (repeat 1 6); RBytes (repeat 2 7)].
Definition ocols : list Column := [dcol "id" 6 3 4 false; dcol "DB_TRX_ID" 0 0 6 false; dcol "DB_ROLL_PTR" 0 0 7 false].
Definition olays : list layout := [fixed 4; fixed 6; fixed 7].
Definition otext : Column := dcol "b" 5 252 10 false.
Definition oprefix : list Z := txt "abc" ++ repeat 9 20.
Definition orow1 : list rstored := ofront 5 ++ [RBytes (txt "hello")].
Definition stale_middle : list Z :=
  [124] ++ repeat 0 9 ++ flat_map (be 2) (rev (ends (2 ^ 15) 0 orow1)) ++ [0; 0; 0; 0; 0; 160] ++ rbody orow1
  ++ flat_map (be 2) (rev (outside_ends (ofront 5) oprefix [])) ++ [0; 0; 0; 0; 0; 116] ++ rbody (ofront 5) ++ oprefix.
Definition behind_middle (rest : list rstored) : list Z :=
  [126] ++ repeat 0 9 ++ flat_map (be 2) (rev (outside_ends (ofront 5) oprefix rest)) ++ [0; 0; 0; 0; 0; 116] ++ rbody (ofront 5) ++ oprefix ++ rbody rest.
Lemma ofront_row rt after : exists row, row_of rt after ocols olays (map as_filler (ofront 5)) row.
Proof. eexists. eapply row_quiet; [discriminate|exact (int_five rt _)|]. do 2 (eapply row_quiet; [discriminate|reflexivity|]). constructor. Qed.
Example C136_case : let page := page_of 0 stale_middle in
  redundant_page page /\ chain false page (infimum false) [124; 160] (supremum false)
  /\ redundant_at page 124 true orow1 /\ outside_at page 160 (ofront 5) oprefix []
  /\ Forall2 describes (ocols ++ [otext]) (olays ++ [varying false true]) /\ Forall2 rfits (olays ++ [varying false true]) orow1 /\ Forall2 rfits olays (ofront 5)
  /\ forall rt after, exists row, row_of rt after ocols olays (map as_filler (ofront 5)) row.
Proof.
  cbv zeta. split; [|split; [|split; [|split; [|split; [|split; [|split]]]]]].
  - destruct (page_of_image 0 stale_middle) as [H1 H2]; [lia|apply bytes_check; reflexivity|cbv; discriminate|]. split; [exact H1|rewrite H2; lia].
  - apply chain_step; [vm_compute; reflexivity|]. apply chain_step; [vm_compute; reflexivity|]. apply chain_end. vm_compute. reflexivity.
  - exists (repeat 0 42 ++ [0] ++ repeat 0 57 ++ [124] ++ repeat 0 9), [0; 0; 0; 0; 0; 160],
      (flat_map (be 2) (rev (outside_ends (ofront 5) oprefix [])) ++ [0; 0; 0; 0; 0; 116] ++ rbody (ofront 5) ++ oprefix ++ repeat 0 (Z.to_nat (16284 - zlen stale_middle))).
    cbv zeta. split; [unfold page_of, stale_middle; rewrite <- !app_assoc; reflexivity|]. repeat split.
  - exists (repeat 0 42 ++ [0] ++ repeat 0 57 ++ [124] ++ repeat 0 9 ++ flat_map (be 2) (rev (ends (2 ^ 15) 0 orow1)) ++ [0; 0; 0; 0; 0; 160] ++ rbody orow1), [0; 0; 0; 0; 0; 116], (repeat 0 (Z.to_nat (16284 - zlen stale_middle))).
    split; [unfold page_of, stale_middle; rewrite <- !app_assoc; reflexivity|]. repeat split.
  - solve_describes.
  - repeat constructor.
  - repeat constructor.
  - exact ofront_row.
Qed.
Example C136_behind_case : forall rest, In rest [[RBytes [128; 0; 0; 9]]; [RBytes (txt "more")]] -> let page := page_of 0 (behind_middle rest) in
  redundant_page page /\ user_origin 126 /\ linked false page (infimum false) 126 /\ outside_at page 126 (ofront 5) oprefix rest
  /\ describes otext (varying false true) /\ describes (dcol "n" 6 3 4 false) (fixed 4) /\ rfits (fixed 4) (RBytes [128; 0; 0; 9]).
Proof.
  intros rest Hr. cbv zeta. split; [|split; [unfold user_origin; lia|split; [|split]]].
  - destruct (page_of_image 0 (behind_middle rest)) as [H1 H2]; [lia|apply bytes_check; destruct Hr as [<-|[<-|[]]]; reflexivity|destruct Hr as [<-|[<-|[]]]; cbv; discriminate|]. split; [exact H1|rewrite H2; lia].
  - destruct Hr as [<-|[<-|[]]]; vm_compute; reflexivity.
  - exists (repeat 0 42 ++ [0] ++ repeat 0 57 ++ [126] ++ repeat 0 9), [0; 0; 0; 0; 0; 116], (repeat 0 (Z.to_nat (16284 - zlen (behind_middle rest)))).
    split; [unfold page_of, behind_middle; rewrite <- !app_assoc; reflexivity|]. destruct Hr as [<-|[<-|[]]]; repeat split.
  - split; [|split; [|reflexivity]]; split; cbn; intuition (try lia; try discriminate).
Qed.
(** A file of one page, of a table with a text column behind. *)
Definition crash_page : list Z :=
  let m := behind_middle [RBytes (txt "more")] in
  (repeat 0 24 ++ [69; 191] ++ repeat 0 74 ++ [126] ++ repeat 0 9) ++ flat_map (be 2) (rev (outside_ends (ofront 5) oprefix [RBytes (txt "more")]))
  ++ [0; 0; 0; 0; 0; 116] ++ rbody (ofront 5) ++ oprefix ++ rbody [RBytes (txt "more")] ++ repeat 0 (Z.to_nat (16284 - zlen m)).
Example C136_file_case : Forall page_image [crash_page] /\ filter (eligible false) (firsts [crash_page]) = [crash_page] /\ nth 42 crash_page 0 < 128
  /\ outside_at crash_page 126 (ofront 5) oprefix [RBytes (txt "more")] /\ user_origin 126 /\ linked false crash_page (infimum false) 126
  /\ getTableColumnsFromDict [(7, mkTable (txt "d") (txt "t") (ocols ++ [otext; otext]) [] 0 0)] (txt "d") (txt "t") = ocols ++ [otext; otext].
Proof.
  split; [|split; [|split; [|split; [|split; [|split]]]]].
  - constructor; [|constructor]. split; [vm_compute; reflexivity|apply bytes_check; vm_compute; reflexivity].
  - change (firsts [crash_page]) with [crash_page]. cbn [filter]. replace (eligible false crash_page) with true by (vm_compute; reflexivity). reflexivity.
  - vm_compute. reflexivity.
  - exists (repeat 0 24 ++ [69; 191] ++ repeat 0 74 ++ [126] ++ repeat 0 9), [0; 0; 0; 0; 0; 116], (repeat 0 (Z.to_nat (16284 - zlen (behind_middle [RBytes (txt "more")])))).
    split; [reflexivity|]. repeat split.
  - unfold user_origin. lia.
  - vm_compute. reflexivity.
  - reflexivity.
Qed.
