(** C136: REDUNDANT records with several columns stored outside the record. *)
From Coq Require Import ZifyBool.
From Verif Require Import GoBase Utils Ibdata SpecInno SpecText SpecSql SpecRecord SpecRow SpecPage SpecOutside PBase PWire PRec PPage PFile PNode PropRec PropOutside.
Local Open Scope list_scope.
Local Open Scope Z_scope.

(** the offsets the tool works with *)
Fixpoint mentries (from : Z) (ms : list (bool * rstored)) : list Z :=
  match ms with
  | [] => []
  | (o, f) :: ms' => let e := from + len (rcontent f) in (if o then e + 2 ^ 14 else e) :: mentries e ms'
  end.
Definition mbody (ms : list (bool * rstored)) : list Z := rbody (map snd ms).
Lemma mbody_cons m ms : len (mbody (m :: ms)) = len (rcontent (snd m)) + len (mbody ms).
Proof. unfold mbody, rbody. cbn [map flat_map]. apply len_app. Qed.
Lemma mbody_app a b : len (mbody (a ++ b)) = len (mbody a) + len (mbody b).
Proof. unfold mbody, rbody. rewrite map_app, flat_map_app. apply len_app. Qed.
Lemma mends_length ms : forall from, List.length (marked_ends from ms) = List.length ms.
Proof. induction ms as [|[o f] ms IH]; intro from; cbn [marked_ends List.length]; [reflexivity|]. now rewrite IH. Qed.
Lemma mentries_length ms : forall from, List.length (mentries from ms) = List.length ms.
Proof. induction ms as [|[o f] ms IH]; intro from; cbn [mentries List.length]; [reflexivity|]. now rewrite IH. Qed.
Lemma mends_words ms : forall from, 0 <= from -> from + len (mbody ms) < 2 ^ 14 ->
  map word_entry (marked_ends from ms) = mentries from ms /\ Forall (fun w => 0 <= w < 65536) (marked_ends from ms).
Proof.
  induction ms as [|[o f] ms IH]; intros from H0 H; [split; [reflexivity|constructor]|]. rewrite mbody_cons in H. cbn [snd] in H.
  pose proof (len_nonneg (rcontent f)). pose proof (len_nonneg (mbody ms)). cbn [marked_ends mentries map]. change (zlen (rcontent f)) with (len (rcontent f)).
  destruct (IH (from + len (rcontent f))) as [A B]; [lia|lia|]. split.
  - rewrite A. f_equal. destruct o; [apply word_outside; lia|]. destruct f; [apply word_null; lia|apply word_plain; lia].
  - constructor; [|exact B]. destruct o, f; lia.
Qed.
Lemma mentries_app a b : forall from, mentries from (a ++ b) = mentries from a ++ mentries (from + len (mbody a)) b.
Proof.
  induction a as [|[o f] a IH]; intro from; [cbn; f_equal; lia|]. cbn [app mentries]. rewrite IH, mbody_cons. cbn [snd]. f_equal. f_equal. f_equal. lia.
Qed.
Lemma mentries_plain fs : forall from, mentries from (map (pair false) fs) = entries from (map plain fs).
Proof. induction fs as [|f fs IH]; intro from; [reflexivity|]. cbn [map mentries plain entries entry content]. now rewrite IH. Qed.
Lemma mbody_plain fs : mbody (map (pair false) fs) = rbody fs.
Proof. unfold mbody. now rewrite map_map, map_id. Qed.

Section Many.
Variables (rt : runtime) (tm : gomap Table) (page : list Z) (off : Z) (ms : list (bool * rstored)).
Hypothesis Hp : redundant_page page.
Hypothesis Hat : marked_at page off ms.
Hypothesis H3 : (3 <= List.length ms)%nat.
Let n := List.length ms.
Let os := [0; Z.of_nat n; 6 + 2 * Z.of_nat n] ++ mentries 0 ms ++ zeros (n - 3).
Let rec := skipn (Z.to_nat off) page.

Lemma many_offsets : ibRecInitOffsetsOld page off (zeros (n * 2)) n = Ok os.
Proof.
  destruct Hp as [[Hpl Hpb] _]. change (zlen page) with (len page) in Hpl.
  destruct Hat as (pre & header & post & Hpg & Hh & Hbit & Hoff & Hb & _). change (@zlen) with (@len) in *. fold (mbody ms) in Hb, Hpg.
  set (ws := marked_ends 0 ms) in *. set (offsets := flat_map (be 2) (rev ws)) in *.
  destruct (mends_words ms 0 ltac:(lia) ltac:(lia)) as [Hw1 Hw2]. fold ws in Hw1, Hw2.
  assert (Hws : List.length ws = n) by apply mends_length.
  assert (Hlo : len offsets = 2 * Z.of_nat n) by (unfold offsets; rewrite flat_be2_len, len_rev; unfold len; now rewrite Hws).
  assert (Hoff' : off = len pre + len offsets + 6) by (unfold len, n in *; lia).
  set (body1 := mbody ms ++ post) in *.
  assert (Hd : page = (pre ++ offsets) ++ header ++ body1) by (rewrite Hpg, <- !app_assoc; reflexivity).
  pose proof (len_nonneg pre). pose proof (len_nonneg body1).
  assert (Hplen : len page = len pre + len offsets + 6 + len body1) by (rewrite Hpg, !len_app, Hh; lia).
  unfold ibRecInitOffsetsOld.
  replace (zeros (n * 2)) with ([0; 0; 0] ++ zeros (n + (n - 3))).
  2:{ change [0; 0; 0] with (zeros 3). rewrite <- zeros_split. f_equal. unfold n. lia. }
  set (tail := zeros _) at 1.
  change ([0; 0; 0] ++ tail) with ([0; 0] ++ 0 :: tail). rewrite set_index_app by reflexivity. cbn [bind].
  change ([0; 0] ++ 0 :: tail) with ([0] ++ 0 :: 0 :: tail). rewrite set_index_app by reflexivity. cbn [bind].
  assert (Hflag : RecGet1byteOffsFlag page off = Ok 0).
  { unfold RecGet1byteOffsFlag, RecGetBitField1. rewrite u64_id by lia.
    assert (Hi : index page (off - 3) = Ok (nth 3 header 0)).
    { replace (off - 3) with (len (pre ++ offsets) + Z.of_nat 3) by (rewrite len_app; lia). rewrite Hd.
      apply index_from_app. apply nth_error_nth'. unfold len in Hh. lia. }
    destruct (slice_index _ _ _ Hi) as [E1 [t E2]]. rewrite E1. cbn [bind]. rewrite E2, mrf1_cons. cbn [bind].
    change 1 with (2 ^ 1 - 1). rewrite land_ones by lia. change (2 ^ 1) with 2. rewrite Hbit. reflexivity. }
  rewrite Hflag. cbn [bind]. change (negb (0 =? 0)) with false. cbv iota.
  change ([0] ++ Z.of_nat n :: 0 :: tail) with ([0; Z.of_nat n] ++ 0 :: tail). rewrite set_index_app by reflexivity. cbn [bind].
  unfold os. set (x := 6 + 2 * Z.of_nat n). change ([0; Z.of_nat n] ++ x :: tail) with ([0; Z.of_nat n; x] ++ tail). unfold tail.
  change 0 with (Z.of_nat 0) at 1. rewrite (old2_words page off ws); [cbn [skipn]; rewrite Hw1; reflexivity| |lia|reflexivity].
  intros i w He. unfold Rec2GetFieldEndInfo.
  assert (Hw : 0 <= w < 65536) by (rewrite Forall_forall in Hw2; apply Hw2; exact (nth_error_In _ _ He)).
  apply nth_error_split in He as (l1 & l2 & El & Hl1).
  assert (Hall : len l1 + 1 + len l2 = Z.of_nat n) by (unfold len; rewrite <- Hws, El, app_length; cbn [List.length]; lia).
  assert (Eoff : offsets = flat_map (be 2) (rev l2) ++ be 2 w ++ flat_map (be 2) (rev l1)).
  { unfold offsets. rewrite El, rev_app_distr. cbn [rev]. rewrite <- app_assoc, flat_map_app. cbn [app flat_map]. reflexivity. }
  pose proof (len_nonneg l1). pose proof (len_nonneg l2).
  rewrite u64_id by (unfold len in *; lia).
  replace page with ((pre ++ flat_map (be 2) (rev l2)) ++ be 2 w ++ (flat_map (be 2) (rev l1) ++ header ++ body1)).
  2:{ rewrite Hpg, Eoff. rewrite <- !app_assoc. reflexivity. }
  rewrite slice_from_app_eq.
  2:{ rewrite len_app, flat_be2_len, len_rev. unfold len in *. lia. }
  cbn [bind]. apply mrf2_be. exact Hw.
Qed.
Lemma many_rec : exists post, rec = mbody ms ++ post /\ 0 < off /\ off + len rec = 16384 /\ len (mbody ms) < 2 ^ 14
  /\ post = skipn (Z.to_nat (off + len (mbody ms))) page.
Proof.
  destruct Hat as (pre & header & post & Ep & Hh & _ & Hoff & Hb & _). change (@zlen) with (@len) in *. fold (mbody ms) in Hb, Ep.
  set (offsets := flat_map (be 2) (rev (marked_ends 0 ms))) in *.
  assert (Hlo : len offsets = 2 * len ms) by (unfold offsets; rewrite flat_be2_len, len_rev; unfold len; now rewrite mends_length).
  assert (El : off = len (pre ++ offsets ++ header)) by (rewrite !len_app, Hh; lia).
  assert (Ed : page = (pre ++ offsets ++ header) ++ mbody ms ++ post) by (rewrite Ep, <- !app_assoc; reflexivity).
  pose proof (len_nonneg pre). pose proof (len_nonneg ms).
  exists post. unfold rec. assert (E : skipn (Z.to_nat off) page = mbody ms ++ post).
  { rewrite Ed, El, to_nat_len. apply skipn_app_len. }
  split; [exact E|]. split; [lia|]. destruct Hp as [[Hpl _] _]. change (zlen page) with (len page) in Hpl.
  split; [rewrite E; rewrite Ed, len_app in Hpl; lia|]. split; [exact Hb|].
  rewrite Ed at 1. rewrite app_assoc, El, <- len_app, to_nat_len. symmetry. apply skipn_app_len.
Qed.
Lemma many_start cols : List.length cols = n -> parsePage_record rt tm page off cols
  = (ok <-w wlift (checkFieldSize os 0 cols) ;;
     if ok : bool then c <-w parseRecords rt rec os cols ;; _ <-w wlift (RecOffsSize os) ;; wret (Some c) else wret None).
Proof.
  intro Hl. destruct many_rec as (post & _ & Ho & Hr & _ & _). pose proof Hp as [Hpi Hcp]. pose proof Hpi as [Hpl Hpb]. change (zlen page) with (len page) in Hpl.
  pose proof (len_nonneg rec). unfold parsePage_record. rewrite slice_from_ok by lia. rewrite wbind_lift.
  destruct (page_format page Hpi) as [_ [E _]]. rewrite E. clear E. rewrite wbind_lift.
  replace (128 <=? nth 42 page 0) with false by lia. change (0 =? 0) with true. cbv iota.
  rewrite Hl, many_offsets. cbn [bind]. rewrite wbind_lift. reflexivity.
Qed.
(** the entries of a column and of the one in front of it *)
Definition mend (o : bool) (e : Z) : Z := if o then e + 2 ^ 14 else e.
Lemma many_at a o1 f1 o2 f2 z : ms = a ++ (o1, f1) :: (o2, f2) :: z ->
  let e := len (mbody a) + len (rcontent f1) in
  (base <- slice_from os 2 ;; index base (len a + 1)) = Ok (mend o1 e)
  /\ (base <- slice_from os 2 ;; index base (len a + 2)) = Ok (mend o2 (e + len (rcontent f2))).
Proof.
  intro E. cbv zeta. unfold os. set (x := 6 + 2 * Z.of_nat n). set (w := mentries 0 ms ++ zeros (n - 3)).
  assert (Es : slice_from ([0; Z.of_nat n; x] ++ w) 2 = Ok (x :: w)) by exact (slice_from_app [0; Z.of_nat n] (x :: w)).
  rewrite Es. cbn [bind]. set (e := len (mbody a) + len (rcontent f1)).
  assert (Ew : x :: w = (x :: mentries 0 a) ++ [mend o1 e; mend o2 (e + len (rcontent f2))] ++ mentries (e + len (rcontent f2)) z ++ zeros (n - 3)).
  { unfold w. rewrite E, mentries_app. cbn [mentries]. rewrite Z.add_0_l. fold e. cbn [app]. f_equal. rewrite <- app_assoc. reflexivity. }
  assert (Hl : len (x :: mentries 0 a) = len a + 1) by (rewrite len_cons; unfold len; rewrite mentries_length; lia).
  rewrite Ew. split.
  - replace (len a + 1) with (len (x :: mentries 0 a) + Z.of_nat 0) by (rewrite Hl; lia). now apply index_from_app.
  - replace (len a + 2) with (len (x :: mentries 0 a) + Z.of_nat 1) by (rewrite Hl; lia). now apply index_from_app.
Qed.
(** the size the tool sees of a column *)
Lemma many_size a o1 f1 o2 f2 z : ms = a ++ (o1, f1) :: (o2, f2) :: z -> o2 = false ->
  RecOffsNthSize os (len a + 1) = Ok (if o1 then 2 ^ 30 + len (rcontent f2) - 2 ^ 14 else len (rcontent f2)).
Proof.
  intros E E2. destruct (many_at a o1 f1 o2 f2 z E) as [A B]. destruct many_rec as (post & _ & _ & _ & Hb & _).
  rewrite E, mbody_app, !mbody_cons in Hb. cbn [snd] in Hb.
  pose proof (len_nonneg (mbody a)). pose proof (len_nonneg (mbody z)). pose proof (len_nonneg (rcontent f1)). pose proof (len_nonneg (rcontent f2)). pose proof (len_nonneg a).
  unfold RecOffsNthSize. destruct (slice_from os 2) as [base| |]; cbn [bind] in *; try discriminate.
  replace (len a + 1 =? 0) with false by lia. replace (1 + (len a + 1)) with (len a + 2) by lia. rewrite A, B, E2. cbn [bind mend]. f_equal. rewrite land_ones by lia. unfold u64, mend. destruct o1; lia.
Qed.
(** the check of the columns behind one: it fails exactly if one of fixed
    length comes directly behind one that is outside *)
Lemma many_check : forall z a o f cs ls i, ms = a ++ (o, f) :: z -> Forall2 describes cs ls -> Forall2 rfits ls (map snd z) ->
  Forall2 (fun l m => fst m = true -> l_fixed l = None) ls z -> i = len a + 1 ->
  exists r, checkFieldSize os i cs = Ok r /\ (r = false <-> exists lz, fixed_behind (lz :: ls) ((o, f) :: z)).
Proof.
  induction z as [|[o2 f2] z IH]; intros a o f cs ls i E HC HF HO Ei.
  - inversion HF; subst ls. inversion HC; subst cs. exists true. split; [reflexivity|]. split; [discriminate|].
    intros (lz & k & g & l & m & _ & A & _). destruct k; discriminate.
  - cbn [map] in HF. inversion HF as [|l ? ls' ? Hf HF']; subst ls. inversion HC as [|c ? cs' ? Hc HC']; subst cs. inversion HO as [|? ? ? ? Ho HO' X1 X2]; clear X1 X2. subst i. cbn [fst] in Ho.
    assert (E' : ms = (a ++ [(o, f)]) ++ (o2, f2) :: z) by (rewrite E, <- app_assoc; reflexivity).
    assert (El : len (a ++ [(o, f)]) + 1 = len a + 1 + 1) by (rewrite len_app; change (len [(o, f)]) with 1; lia).
    destruct (IH (a ++ [(o, f)]) o2 f2 cs' ls' (len a + 1 + 1) E' HC' HF' HO' (eq_sym El)) as [r [Er Hr]].
    cbn [checkFieldSize]. pose proof (describes_fixed c l Hc) as Hfx.
    assert (Sh : forall lz, (exists l1, fixed_behind (l1 :: ls') ((o2, f2) :: z)) -> fixed_behind (lz :: l :: ls') ((o, f) :: (o2, f2) :: z)).
    { intros lz (l1 & k & g & ly & m & A & B & C). exists (S k), g, ly, m. split; [exact A|]. split; [|exact C]. cbn [nth_error] in *. destruct k; exact B. }
    assert (Un : forall lz, fixed_behind (lz :: l :: ls') ((o, f) :: (o2, f2) :: z) -> (o = true /\ exists m, l_fixed l = Some m) \/ exists l1, fixed_behind (l1 :: ls') ((o2, f2) :: z)).
    { intros lz (k & g & ly & m & A & B & C). destruct k as [|k]; [left|right].
      - injection A as -> ->. injection B as ->. split; [reflexivity|]. now exists m.
      - exists l, k, g, ly, m. split; [exact A|]. split; [exact B|exact C]. }
    destruct (l_fixed l) as [m|] eqn:Efx.
    + destruct Hfx as [Ef Hm]. rewrite Ef. replace (m =? 0) with false by lia. cbn [negb].
      assert (Eo2 : o2 = false) by (destruct o2; [specialize (Ho eq_refl); discriminate|reflexivity]).
      rewrite (many_size a o f o2 f2 z E Eo2). cbn [bind]. unfold rfits in Hf. rewrite Efx in Hf. change (zlen (rcontent f2)) with (len (rcontent f2)) in Hf. rewrite Hf.
      destruct Hc as [_ Hcl]. rewrite Efx in Hcl. replace (c_len c =? 0) with false by lia. cbn [negb andb].
      destruct many_rec as (post & _ & _ & _ & Hb & _). rewrite E, mbody_app, !mbody_cons in Hb. cbn [snd] in Hb.
      pose proof (len_nonneg (mbody a)). pose proof (len_nonneg (mbody z)). pose proof (len_nonneg (rcontent f)). pose proof (len_nonneg (rcontent f2)).
      destruct o.
      * replace (2 ^ 30 + m - 2 ^ 14 =? 0) with false by lia. replace (2 ^ 30 + m - 2 ^ 14 =? m) with false by lia. cbn [andb negb]. exists false. split; [reflexivity|]. split; [|reflexivity]. intros _.
        exists l, 0%nat, f, l, m. now split.
      * replace (m =? 0) with false by lia. rewrite Z.eqb_refl. cbn [andb negb]. exists r. split; [exact Er|]. split.
        -- intro H'. exists l. apply Sh, Hr, H'.
        -- intros [lz H']. apply Hr. destruct (Un lz H') as [[X _]|X]; [discriminate|exact X].
    + rewrite Hfx. change (negb (0 =? 0)) with false. cbv iota. exists r. split; [exact Er|]. split.
      * intro H'. exists l. apply Sh, Hr, H'.
      * intros [lz H']. apply Hr. destruct (Un lz H') as [[_ [m X]]|X]; [congruence|exact X].
Qed.
End Many.
Lemma behind_head l1 l2 ls ms : fixed_behind (l1 :: ls) ms -> fixed_behind (l2 :: ls) ms.
Proof. intros (i & f & l & m & A & B & C). exists i, f, l, m. now split. Qed.
Lemma behind_front lf front ls ms : List.length lf = List.length front ->
  fixed_behind (lf ++ ls) (map (pair false) front ++ ms) <-> fixed_behind ls ms.
Proof.
  intro H. split.
  - intros (i & f & l & m & A & B & C). destruct (Nat.lt_ge_cases i (List.length front)) as [Hi|Hi].
    + rewrite nth_error_app1 in A by (rewrite map_length; lia). apply nth_error_In, in_map_iff in A as [x [A _]]. discriminate.
    + exists (i - List.length front)%nat, f, l, m. rewrite nth_error_app2, map_length in A by (rewrite map_length; lia). split; [exact A|].
      rewrite nth_error_app2 in B by lia. replace (S i - List.length lf)%nat with (S (i - List.length front)) in B by lia. now split.
  - intros (i & f & l & m & A & B & C). exists (List.length front + i)%nat, f, l, m. split; [|split; [|exact C]].
    + rewrite nth_error_app2, map_length by (rewrite map_length; lia). now replace (List.length front + i - List.length front)%nat with i by lia.
    + rewrite nth_error_app2 by lia. now replace (S (List.length front + i) - List.length lf)%nat with (S i) by lia.
Qed.

(** Whatever comes behind the first of them, inside or outside: if somewhere a
    column of fixed length comes directly behind one of them, the record is
    rejected, and no row of the page is printed if it is the first; if not,
    decoding it panics. *)
Theorem C136_several_refuted : forall rt tm page off front b m1 rest cf lf c l cr lr row fuel,
  let ms := map (pair false) front ++ (true, RBytes b) :: m1 :: rest in
  redundant_page page -> marked_at page off ms ->
  Forall2 describes cf lf -> Forall2 rfits lf front -> describes c l -> l_fixed l = None ->
  Forall2 describes cr lr -> Forall2 rfits lr (map snd (m1 :: rest)) -> Forall2 (fun l m => fst m = true -> l_fixed l = None) lr (m1 :: rest) ->
  (1 <= List.length cf)%nat ->
  row_of rt (skipn (Z.to_nat (off + zlen (rbody front))) page) cf lf (map as_filler front) row ->
  (fixed_behind (lf ++ l :: lr) ms ->
     parsePage_record rt tm page off (cf ++ c :: cr) = ([], Ok None)
     /\ (user_origin off -> linked false page (infimum false) off -> (0 < fuel)%nat ->
         parsePage fuel rt tm page (cf ++ c :: cr) false 0 = ([], Ok ([], cf ++ c :: cr))))
  /\ (~ fixed_behind (lf ++ l :: lr) ms ->
     parsePage_record rt tm page off (cf ++ c :: cr) = (remarks cf (map as_filler front), Panic)
     /\ (user_origin off -> linked false page (infimum false) off -> (0 < fuel)%nat ->
         forall free, parsePage fuel rt tm page (cf ++ c :: cr) false free = (remarks cf (map as_filler front), Panic))).
Proof.
  intros rt tm page off front b m1 rest cf lf c l cr lr row fuel ms Hp Hat HC HF Hc Hl HCr HFr HO H1 HR. change (@zlen) with (@len) in HR.
  assert (Elf : List.length lf = List.length front) by exact (forall2_length _ _ _ HF).
  assert (Ecf : List.length cf = List.length front) by (rewrite (forall2_length _ _ _ HC); exact Elf).
  assert (Ecr : List.length cr = S (List.length rest)) by (rewrite (forall2_length _ _ _ HCr), (forall2_length _ _ _ HFr), map_length; reflexivity).
  assert (Lms : List.length ms = (List.length front + S (S (List.length rest)))%nat) by (unfold ms; rewrite app_length, map_length; reflexivity).
  assert (H3 : (3 <= List.length ms)%nat) by lia.
  pose proof (many_start rt tm page off ms Hp Hat H3 (cf ++ c :: cr) ltac:(rewrite app_length; cbn [List.length]; lia)) as E0.
  destruct (many_rec page off ms Hp Hat H3) as (post & Er & Ho & Hrl & Hb & _).
  assert (Ems : ms = map (pair false) front ++ (true, RBytes b) :: m1 :: rest) by reflexivity.
  pose proof (many_check page off ms Hp Hat H3 (m1 :: rest) (map (pair false) front) true (RBytes b) cr lr (len cf + 1) Ems HCr HFr HO ltac:(rewrite len_map; unfold len; lia)) as Hk.
  pose proof (many_at ms H3) as Hent.
  set (n := List.length ms) in *. set (os := [0; Z.of_nat n; _] ++ _) in *. set (rec := skipn (Z.to_nat off) page) in *.
  assert (Hmb : len (mbody ms) = len (rbody front) + (len b + (len (rcontent (snd m1)) + len (mbody rest)))).
  { unfold ms. rewrite mbody_app, !mbody_cons, mbody_plain. reflexivity. }
  pose proof (len_nonneg (rbody front)). pose proof (len_nonneg b). pose proof (len_nonneg (rcontent (snd m1))). pose proof (len_nonneg (mbody rest)).
  set (fs := map plain front ++ [pseudo b]).
  assert (Hfs : holds os fs /\ holds os (map plain front)).
  { assert (E : mentries 0 ms = entries 0 fs ++ mentries (len (rbody front) + len b) (m1 :: rest)).
    { unfold ms, fs. rewrite mentries_app, mentries_plain, mbody_plain, entries_app, body_plain, <- app_assoc. destruct m1 as [o1 f1]. cbn [mentries entries app rcontent]. unfold pseudo. cbn [entry]. rewrite len_app, zeros_len, !Z.add_0_l. change (2 ^ 14) with 16384. do 2 f_equal. lia. }
    split; unfold holds, os; rewrite E.
    - do 3 eexists. rewrite <- app_assoc. reflexivity.
    - unfold fs. rewrite entries_app. do 3 eexists. rewrite <- !app_assoc. reflexivity. }
  destruct Hfs as [Hh1 Hh2].
  assert (Hbf : len (body fs) < 2 ^ 30).
  { unfold fs, body. rewrite flat_map_app, len_app. fold (body (map plain front)). rewrite body_plain. cbn [flat_map]. rewrite app_nil_r, pseudo_len. lia. }
  assert (Ek1 : checkFieldSize os 0 (cf ++ [c]) = Ok true).
  { apply (check_size os fs Hh1 Hbf (cf ++ [c]) (lf ++ [l]) fs 0 eq_refl).
    - apply Forall2_app; [exact HC|]. now constructor.
    - unfold fs. apply Forall2_app; [now apply fits_plain|]. constructor; [|constructor]. unfold fits0, pseudo. now rewrite Hl. }
  destruct Hk as [r [Ek2 Hr]].
  assert (Ek : checkFieldSize os 0 (cf ++ c :: cr) = Ok r).
  { change (cf ++ c :: cr) with (cf ++ [c] ++ cr). rewrite app_assoc, check_app by exact Ek1. rewrite len_app. change (len [c]) with 1. rewrite Z.add_0_l. exact Ek2. }
  assert (Hr' : r = false <-> fixed_behind (lf ++ l :: lr) ms).
  { rewrite Hr. unfold ms. rewrite behind_front by exact Elf. split; [intros [lz H']; exact (behind_head _ _ _ _ H')|intro H'; now exists l]. }
  rewrite Ek, wbind_lift in E0. split; intro HB.
  - apply Hr' in HB. subst r. cbv iota in E0. split; [exact E0|]. intros Hu Hk Hf. now apply (page_rejected rt tm page _ off fuel).
  - assert (Ert : r = true) by (destruct r; [reflexivity|exfalso; apply HB, Hr'; reflexivity]). subst r. cbv iota in E0.
    assert (E : parsePage_record rt tm page off (cf ++ c :: cr) = (remarks cf (map as_filler front), Panic)).
    { rewrite E0. unfold parseRecords. destruct cr as [|c1 cr]; [discriminate|]. rewrite fields_app.
      assert (Erec : rec = body (map plain front) ++ skipn (Z.to_nat (off + len (rbody front))) page).
      { assert (Em : exists y, rec = rbody front ++ y).
        { eexists. rewrite Er. unfold ms, mbody, rbody. rewrite map_app, map_map, flat_map_app. cbn [snd]. rewrite map_id, <- app_assoc. reflexivity. }
        destruct Em as [y Em]. rewrite body_plain, Z2Nat.inj_add, <- skipn_skipn by lia. fold rec. rewrite Em, to_nat_len, skipn_app_len. reflexivity. }
      pose proof (parse_fields rt rec os (map plain front) _ Hh2 ltac:(rewrite body_plain; lia) Erec ltac:(lia) cf lf (map plain front) 0%nat eq_refl HC (fits_plain _ _ HF)) as Ef. change (Z.of_nat 0) with 0 in Ef. rewrite Ef.
      change as_filler with plain in *. rewrite (row_of_values _ _ _ _ _ _ HR). cbn [parseFields]. rewrite Z.add_0_l. replace (len cf) with (len front) by (unfold len; lia).
      assert (Eown : parseField rt rec os (len front) c = wret c).
      { assert (Hn : nth_error fs (List.length front) = Some (pseudo b)) by (unfold fs; rewrite nth_error_app2 by (rewrite map_length; lia); rewrite map_length, Nat.sub_diag; reflexivity).
        unfold parseField, RecGetNthField. change (len front) with (Z.of_nat (List.length front)). rewrite (field_offs os fs _ _ Hh1 Hn Hbf). cbn [bind].
        unfold fs. rewrite firstn_app, map_length, Nat.sub_diag, firstn_all2 by (rewrite map_length; lia). cbn [firstn]. rewrite app_nil_r, body_plain.
        rewrite slice_from_ok by (rewrite Er, len_app, Hmb; pose proof (len_nonneg post); lia).
        cbn [bind]. rewrite wbind_lift. cbn beta iota. unfold pseudo. fold (pseudo b). rewrite len_skipn by (rewrite Er, len_app, Hmb; pose proof (len_nonneg post); lia).
        rewrite pseudo_len. rewrite Z2Nat.id by lia. replace (len rec - len (rbody front) <? len b + 2 ^ 14) with true by lia. replace (len b + 2 ^ 14 =? 4294967295) with false by lia. reflexivity. }
      rewrite Eown, wbind_ret.
      assert (Ebeh : parseField rt rec os (len front + 1) c1 = ([], Panic)).
      { destruct m1 as [o1 f1]. destruct (Hent (map (pair false) front) true (RBytes b) o1 f1 rest eq_refl) as [A B]. rewrite len_map in A, B. rewrite mbody_plain in A, B. cbn [rcontent mend snd] in *.
        unfold parseField, RecGetNthField, RecGetNthFieldOffs. fold n in A, B. fold os in A, B. destruct (slice_from os 2) as [base| |]; cbn [bind] in *; try discriminate.
        pose proof (len_nonneg front). replace (len front + 1 =? 0) with false by lia. rewrite A. cbn [bind]. replace (len front + 1 + 1) with (len front + 2) by lia. rewrite B. cbn [bind].
        set (e := len (rbody front) + len b) in *. rewrite (land_ones (e + 2 ^ 14)) by lia. rewrite Z.mod_small by lia.
        destruct (Z.land _ (2 ^ 31) =? 0); cbn [bind]; rewrite slice_from_panic by lia; reflexivity. }
      rewrite Ebeh. unfold wbind, wret, wlift. cbn. rewrite !app_nil_r. reflexivity. }
    split; [exact E|]. intros Hu Hk' Hf free. rewrite (parsePage_start fuel rt tm page _ false) by exact Hp. cbv iota. unfold user_origin in Hu.
    replace (field page 99 2) with off by (symmetry; exact Hk'). destruct fuel as [|fuel]; [lia|]. cbn [parsePage_loop supremum].
    replace ((off <? 16384 - 6) && negb (off =? 116)) with true by lia. rewrite E. reflexivity.
Qed.
Print Assumptions C136_several_refuted.

(** Pages meeting the hypotheses: two texts stored outside, and the same with
    an INT behind the second. *)
Definition many_cols (more : list rstored) : list (bool * rstored) :=
  map (pair false) (ofront 5) ++ (true, RBytes oprefix) :: (true, RBytes oprefix) :: map (pair false) more.
Definition many_middle (more : list rstored) : list Z :=
  [128] ++ repeat 0 9 ++ repeat 0 (2 - 2 * List.length more) ++ flat_map (be 2) (rev (marked_ends 0 (many_cols more))) ++ [0; 0; 0; 0; 0; 116] ++ rbody (map snd (many_cols more)).
Example C136_several_case : forall more lmore, In (more, lmore) [([], []); ([RBytes [128; 0; 0; 9]], [fixed 4])] -> let page := page_of 0 (many_middle more) in
  redundant_page page /\ user_origin 128 /\ linked false page (infimum false) 128 /\ marked_at page 128 (many_cols more)
  /\ Forall2 rfits (varying false true :: lmore) (map snd ((true, RBytes oprefix) :: map (pair false) more))
  /\ Forall2 (fun l m => fst m = true -> l_fixed l = None) (varying false true :: lmore) ((true, RBytes oprefix) :: map (pair false) more)
  /\ (fixed_behind (olays ++ varying false true :: varying false true :: lmore) (many_cols more) <-> more <> []).
Proof.
  intros more lmore Hr. cbv zeta. split; [|split; [unfold user_origin; lia|split; [|split; [|split; [|split]]]]].
  - destruct (page_of_image 0 (many_middle more)) as [H1 H2]; [lia|apply bytes_check; destruct Hr as [[= <- <-]|[[= <- <-]|[]]]; reflexivity|destruct Hr as [[= <- <-]|[[= <- <-]|[]]]; cbv; discriminate|]. split; [exact H1|rewrite H2; lia].
  - destruct Hr as [[= <- <-]|[[= <- <-]|[]]]; vm_compute; reflexivity.
  - exists (repeat 0 42 ++ [0] ++ repeat 0 57 ++ [128] ++ repeat 0 9 ++ repeat 0 (2 - 2 * List.length more)), [0; 0; 0; 0; 0; 116], (repeat 0 (Z.to_nat (16284 - zlen (many_middle more)))).
    split; [unfold page_of, many_middle; rewrite <- !app_assoc; reflexivity|]. destruct Hr as [[= <- <-]|[[= <- <-]|[]]]; (split; [reflexivity|split; [reflexivity|split; [reflexivity|split; [reflexivity|]]]]);
      repeat (constructor; [cbn [fst snd]; intro; first [discriminate|eexists; reflexivity]|]); constructor.
  - destruct Hr as [[= <- <-]|[[= <- <-]|[]]]; repeat constructor.
  - destruct Hr as [[= <- <-]|[[= <- <-]|[]]]; repeat (constructor; [cbn [fst]; intro; first [discriminate|reflexivity]|]); constructor.
  - destruct Hr as [[= <- <-]|[[= <- <-]|[]]].
    + split; [|intro H; now elim H]. intros (i & f & l & m & A & B & C). do 5 (destruct i as [|i]; [cbn in A, B; first [discriminate A|discriminate B|injection B as <-; discriminate C]|]). destruct i; discriminate A.
    + split; [discriminate|]. intros _. exists 4%nat, (RBytes oprefix), (fixed 4), 4. repeat split.
Qed.
