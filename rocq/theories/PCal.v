(** The civil date computed for a day number is the one the calendar gives. *)
From Coq Require Import ZifyBool.
From Verif Require Import GoBase Utils SpecInno SpecText PBase PWire PValue.
Local Open Scope list_scope.
Ltac Zify.zify_post_hook ::= Z.div_mod_to_equations.

(** checking a decidable fact over an integer interval *)
Fixpoint all_in (n : nat) (z : Z) (f : Z -> bool) : bool :=
  match n with O => true | S n' => f z && all_in n' (z + 1) f end.
Lemma all_in_spec n : forall z f, all_in n z f = true -> forall x, z <= x < z + Z.of_nat n -> f x = true.
Proof.
  induction n as [|n IH]; intros z f H x Hx; [lia|]. cbn [all_in] in H. apply andb_true_iff in H. destruct H as [H1 H2].
  destruct (Z.eq_dec x z) as [->|Hne]; [exact H1|]. apply (IH _ _ H2). lia.
Qed.

(** the year of the era: 400 years of 365 or 366 days, starting in March *)
Definition era_year (doe : Z) : Z := (doe - doe / 1460 + doe / 36524 - doe / 146096) / 365.
Definition year_start (y : Z) : Z := 365 * y + y / 4 - y / 100 + y / 400.
Lemma era_year_mono a b : 0 <= a <= b -> b < 146097 -> era_year a <= era_year b.
Proof.
  intros Ha Hb. unfold era_year. apply Z.div_le_mono; [lia|].
  assert (E : forall x y, 0 <= x <= y -> y < 146097 -> x - x / 1460 - x / 146096 <= y - y / 1460 - y / 146096).
  { clear. intros x y H1 H2. lia. }
  pose proof (E a b Ha Hb). assert (a / 36524 <= b / 36524) by (apply Z.div_le_mono; lia). lia.
Qed.
Lemma era_year_spec doe : 0 <= doe < 146097 ->
  exists y, era_year doe = y /\ 0 <= y < 400 /\ year_start y <= doe < year_start (y + 1).
Proof.
  intro H. pose proof (all_in_spec 400 0 (fun y => (era_year (year_start y) =? y) && (era_year (year_start (y + 1) - 1) =? y))
    eq_refl) as A. cbv beta in A.
  assert (B : forall n, 0 <= n <= 400 -> doe < year_start n ->
     exists y, 0 <= y < n /\ year_start y <= doe < year_start (y + 1)).
  { intros n Hn. replace n with (Z.of_nat (Z.to_nat n)) by lia. revert Hn. induction (Z.to_nat n) as [|k IH] eqn:E; intros _ Hl.
    - exfalso. change (year_start (Z.of_nat 0)) with 0 in Hl. lia.
    - clear IH. clear E. induction k as [|k IH].
      + exists 0. change (Z.of_nat 1) with 1 in *. split; [lia|]. split; [change (year_start 0) with 0; lia|exact Hl].
      + destruct (Z.lt_ge_cases doe (year_start (Z.of_nat (S k)))) as [G|G].
        * destruct (IH G) as [y [H1 H2]]. exists y. split; [lia|exact H2].
        * exists (Z.of_nat (S k)). split; [lia|]. split; [exact G|].
          replace (Z.of_nat (S k) + 1) with (Z.of_nat (S (S k))) by lia. exact Hl. }
  destruct (B 400) as [y [Hy Hs]]; [lia|change (year_start 400) with 146097; lia|].
  exists y. split; [|split; [exact Hy|exact Hs]].
  specialize (A y ltac:(lia)). apply andb_true_iff in A. destruct A as [A1 A2].
  apply Z.eqb_eq in A1, A2.
  assert (year_start (y + 1) <= 146097) by (unfold year_start; lia).
  assert (0 <= year_start y) by (unfold year_start; lia).
  pose proof (era_year_mono (year_start y) doe ltac:(lia) ltac:(lia)).
  pose proof (era_year_mono doe (year_start (y + 1) - 1) ltac:(lia) ltac:(lia)). lia.
Qed.

(** month and day of the day of a March-based year; [lp]: is the calendar year
    the day falls in a leap year *)
Definition mdl (lp : bool) (m : Z) : Z :=
  if m =? 2 then (if lp then 29 else 28)
  else if (m =? 4) || (m =? 6) || (m =? 9) || (m =? 11) then 30 else 31.
Fixpoint dbml (lp : bool) (m : nat) : Z :=
  match m with
  | O => 0
  | S O => 0
  | S m' => dbml lp m' + mdl lp (Z.of_nat m')
  end.
Lemma dbml_spec y m : days_before_month y m = dbml (leap y) m.
Proof. induction m as [|m IH]; [reflexivity|]. cbn [days_before_month dbml]. destruct m; [reflexivity|]. now rewrite IH. Qed.
Definition month_ok (lp : bool) (doy : Z) : bool :=
  let mp := (5 * doy + 2) / 153 in
  let d := doy - (153 * mp + 2) / 5 + 1 in
  let m := if mp <? 10 then mp + 3 else mp - 9 in
  (1 <=? m) && (m <=? 12) && (1 <=? d)
  && ((doy =? 365) && negb lp || (d <=? mdl lp m)) &&
  (dbml lp (Z.to_nat m) + (d - 1) =? doy + (if m <=? 2 then - 306 else 59 + (if lp then 1 else 0)))
  && (if m <=? 2 then 306 <=? doy else doy <? 306).
Lemma month_spec lp doy : 0 <= doy <= 365 -> month_ok lp doy = true.
Proof.
  intro H. destruct lp.
  - apply (all_in_spec 366 0 (month_ok true)); [reflexivity|lia].
  - apply (all_in_spec 366 0 (month_ok false)); [reflexivity|lia].
Qed.
Lemma leap_spec y : (if leap y then 1 else 0) = year_start y - year_start (y - 1) - 365.
Proof.
  unfold leap, year_start.
  destruct (Z.eqb_spec (y mod 4) 0); destruct (Z.eqb_spec (y mod 100) 0); destruct (Z.eqb_spec (y mod 400) 0);
    cbn [andb orb negb]; lia.
Qed.
Lemma leap_shift y k : leap (y + 400 * k) = leap y.
Proof.
  unfold leap. replace ((y + 400 * k) mod 4) with (y mod 4) by lia.
  replace ((y + 400 * k) mod 100) with (y mod 100) by lia.
  replace ((y + 400 * k) mod 400) with (y mod 400) by lia. reflexivity.
Qed.

Lemma civil_spec days : - 719468 <= days ->
  exists y m d, civil_of_days days = (y, m, d) /\ 0 <= y /\ valid_date y m d /\ day_number y m d = days.
Proof.
  intro Hd. unfold civil_of_days. set (era := (days + 719468) / 146097). set (doe := (days + 719468) mod 146097).
  assert (He : 0 <= era) by (unfold era; lia). assert (Hdoe : 0 <= doe < 146097) by (unfold doe; lia).
  assert (Hdays : days = era * 146097 + doe - 719468) by (unfold era, doe; lia). clearbody era doe.
  fold (era_year doe). destruct (era_year_spec doe Hdoe) as [yy [E [Hyy Hs]]]. rewrite E. cbv zeta.
  replace (365 * yy + yy / 4 - yy / 100) with (year_start yy) by (unfold year_start; lia).
  set (doy := doe - year_start yy) in *.
  assert (Hl : year_start (yy + 1) - year_start yy = 365 + (if leap (yy + 1) then 1 else 0)).
  { rewrite (leap_spec (yy + 1)). replace (yy + 1 - 1) with yy by lia. lia. }
  assert (Hdoy : 0 <= doy < 365 + (if leap (yy + 1) then 1 else 0)) by (unfold doy; lia).
  assert (Hdoy' : 0 <= doy <= 365) by (destruct (leap (yy + 1)); lia).
  pose proof (leap_spec yy) as Hl0.
  set (lp := if doy <? 306 then leap yy else leap (yy + 1)).
  pose proof (month_spec lp doy Hdoy') as M. unfold month_ok in M.
  set (mp := (5 * doy + 2) / 153) in *. set (d := doy - (153 * mp + 2) / 5 + 1) in *.
  set (m := if mp <? 10 then mp + 3 else mp - 9) in *. cbv zeta in M. clearbody mp d m.
  set (y := yy + era * 400 + (if m <=? 2 then 1 else 0)).
  exists y, m, d. rewrite !andb_true_iff in M. destruct M as [[[[[M1 M2] M3] M4] M5] M6].
  assert (Ely : leap y = lp).
  { unfold y, lp. destruct (m <=? 2); destruct (Z.ltb_spec doy 306); try lia.
    - replace (yy + era * 400 + 1) with (yy + 1 + 400 * era) by lia. apply leap_shift.
    - replace (yy + era * 400 + 0) with (yy + 400 * era) by lia. apply leap_shift. }
  split; [reflexivity|]. split; [unfold y; destruct (m <=? 2); lia|]. split.
  - unfold valid_date. split; [lia|]. split; [lia|]. unfold month_days. rewrite Ely. fold (mdl lp m).
    apply orb_true_iff in M4. destruct M4 as [M4|M4]; [|lia].
    unfold lp in *. destruct (doy <? 306) eqn:G; [lia|]. destruct (leap (yy + 1)); cbn [negb] in *; lia.
  - unfold day_number. rewrite dbml_spec, Ely.
    assert (dbml lp (Z.to_nat m) + (d - 1) = doy + (if m <=? 2 then - 306 else 59 + (if lp then 1 else 0))) by lia.
    assert (Hy0 : days_before_year y = year_start (y - 1)) by (unfold days_before_year, year_start; lia).
    change (days_before_year 1970) with 719162. rewrite Hy0.
    assert (Sh : forall a, year_start (a + era * 400) = year_start a + era * 146097).
    { intro a. unfold year_start. lia. }
    unfold y in *. unfold doy in *. destruct (m <=? 2).
    + replace (yy + era * 400 + 1 - 1) with (yy + era * 400) by lia. rewrite Sh. lia.
    + replace (yy + era * 400 + 0 - 1) with (yy - 1 + era * 400) by lia. rewrite Sh.
      assert (lp = leap yy) as Elp by (unfold lp; destruct (doe - year_start yy <? 306); [reflexivity|lia]).
      rewrite Elp in *. lia.
Qed.

(** ** TIMESTAMP *)
Definition hour12 (h : Z) : Z := if h mod 12 =? 0 then 12 else h mod 12.
Lemma timestamp_parse rt t rest : 0 <= t < 2 ^ 32 -> - 86400 < rt_zone rt t < 86400 ->
  exists y m d h mi s ty tm td th tmi ts,
    valid_date y m d /\ 0 <= h < 24 /\ 0 <= mi < 60 /\ 0 <= s < 60
    /\ day_number y m d * 86400 + h * 3600 + mi * 60 + s = t + rt_zone rt t
    /\ ParseTimeStamp rt (store_timestamp t ++ rest)
       = Ok (ty ++ [45] ++ tm ++ [45] ++ td ++ [32] ++ th ++ [58] ++ tmi ++ [58] ++ ts)
    /\ dec_text 4 y ty /\ dec_text 2 m tm /\ dec_text 2 d td
    /\ dec_text 2 (hour12 h) th /\ dec_text 2 mi tmi /\ dec_text 2 s ts.
Proof.
  intros Ht Hz. unfold ParseTimeStamp, store_timestamp. rewrite mrf4_be by exact Ht. cbn [bind].
  rewrite i64_id by lia. unfold time_format. set (q := t + rt_zone rt t).
  destruct (civil_spec (q / 86400)) as [y [m [d [E [Hy [Hv Hn]]]]]]; [unfold q; lia|].
  rewrite E. exists y, m, d, (q mod 86400 / 3600), (q mod 86400 mod 3600 / 60), (q mod 86400 mod 60).
  exists (fmt_year4 y), (fmt_02d m), (fmt_02d d), (fmt_02d (hour12 (q mod 86400 / 3600))),
    (fmt_02d (q mod 86400 mod 3600 / 60)), (fmt_02d (q mod 86400 mod 60)).
  split; [exact Hv|]. split; [lia|]. split; [lia|]. split; [lia|]. split; [rewrite Hn; lia|].
  split; [unfold hour12; reflexivity|].
  destruct Hv as [Hm Hdd].
  split; [now apply fmt_year4_spec|]. split; [apply fmt_02d_spec; lia|]. split; [apply fmt_02d_spec; lia|].
  split; [apply fmt_02d_spec; unfold hour12; destruct (_ =? 0); lia|].
  split; apply fmt_02d_spec; lia.
Qed.
