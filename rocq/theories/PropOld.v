(** C119, C120: SET columns, and dates and times of tables made before 5.6.
    Theorems only; proofs in POld.v, the formats in SpecOld.v. *)
From Verif Require Import GoBase Utils SpecInno SpecText SpecSql SpecTypes SpecOld PBase PWire PValue PCal PText PTypes PropValue POld.
Local Open Scope list_scope.

(** C119: the number shown for a SET value, and when it is the same value again:
    if the number is not the name of a member that alone is not the value, and,
    for 17 to 24 members, if the two last of 24 are not in it. *)
Theorem C119_set_refuted : forall rt members mask rest b, NoDup members ->
  (1 <= List.length members <= 64)%nat -> 0 <= mask < 2 ^ Z.of_nat (List.length members) ->
  exists n t, n = (if Nat.leb 17 (List.length members) && Nat.leb (List.length members) 24 then mask mod 2 ^ 22 else mask)
  /\ ParseData rt innodb_int field_string (store_set members mask ++ rest) (Z.of_nat (set_size members)) (Z.of_nat (set_size members)) true b
     = ([], Ok (VUint n, b))
  /\ t = fmt_v rt (VUint n) /\ dec_text 1 n t
  /\ (set_denotes members t mask <-> (forall j, nth_error members j = Some t -> mask = 2 ^ Z.of_nat j) /\ (In t members \/ n = mask)).
Proof. numbers.
  intros rt members mask rest b Hn Hl Hm. destruct (set_sizes members Hl) as [S1 [S2 S3]].
  set (n := if Nat.leb 17 (List.length members) && Nat.leb (List.length members) 24 then mask mod 2 ^ 22 else mask).
  assert (Hb : 0 <= n <= mask).
  { unfold n. destruct (_ && _); [|lia]. split; [apply Z.mod_pos_bound; lia|apply Z.mod_le; lia]. }
  assert (Hd : dec_text 1 n (fmt_v rt (VUint n))) by (destruct (fmt_d_spec n) as [[_ H]|[H _]]; [exact H|lia]).
  exists n, (fmt_v rt (VUint n)). split; [reflexivity|]. split; [|split; [reflexivity|split; [exact Hd|]]].
  - assert (C : set_size members = 3%nat \/ In (set_size members) [1; 2; 4; 8]%nat) by (cbn [In] in S1 |- *; destruct S1 as [S1|[S1|[S1|[S1|[S1|[]]]]]]; auto 8). destruct C as [C|C].
    + assert (Nat.leb 17 (List.length members) && Nat.leb (List.length members) 24 = true) as E by lia.
      unfold n. rewrite E. unfold store_set. rewrite C. apply (C11_unsigned_mediumint_partial rt field_string mask rest b); [discriminate|discriminate|].
      rewrite C in S2. change (256 ^ Z.of_nat 3) with (256 ^ 3) in S2. lia.
    + assert (Nat.leb 17 (List.length members) && Nat.leb (List.length members) 24 = false) as E by (cbn in C; lia).
      unfold n. rewrite E. apply (C10_unsigned_int rt field_string (set_size members) mask rest b); [exact C|discriminate|discriminate|]. lia.
  - assert (HL : (List.length (fmt_v rt (VUint n)) < 22)%nat).
    { set (t := fmt_v rt (VUint n)) in *. destruct (le_lt_dec 22 (List.length t)) as [G|G]; [|exact G]. exfalso.
      destruct Hd as [D [V [_ [_ Hh]]]]. destruct t as [|c r]; [cbn in G; lia|]. destruct Hh as [Hh|Hh]; [cbn [List.length Nat.max] in Hh, G; lia|].
      pose proof (dec_val_lead c r D Hh) as B. rewrite V in B. cbn [List.length] in G.
      assert (2 ^ Z.of_nat (List.length members) <= 2 ^ 64) by (apply Z.pow_le_mono_r; lia).
      assert (10 ^ 21 <= 10 ^ len r) by (apply Z.pow_le_mono_r; unfold len; lia).
      change (2 ^ 64) with 18446744073709551616 in *. change (10 ^ 21) with 1000000000000000000000 in *. lia. }
    rewrite (set_back members _ n mask Hn Hd HL ltac:(lia)). set (t := fmt_v rt (VUint n)) in *.
    pose proof (member_spec members t 0) as HM. destruct (member 0 members t) as [j|].
    + destruct HM as [i [-> Hi]]. rewrite Z.add_0_l. split.
      * intros ->. split; [|left; exact (nth_error_In _ _ Hi)]. intros j Hj. f_equal. f_equal. apply (proj1 (NoDup_nth_error members) Hn); [|rewrite Hi, Hj; reflexivity].
        apply nth_error_Some. congruence.
      * intros [A _]. exact (A i Hi).
    + split.
      * intro Em. split; [|right; symmetry; exact Em]. intros j Hj. exfalso. exact (HM (nth_error_In _ _ Hj)).
      * intros [_ [A|A]]; [contradiction|symmetry; exact A].
Qed.
Print Assumptions C119_set_refuted.
(** Full statement: the same members again.  Proved: if no member's name is a
    number, except for 23 or 24 members; missing (false): the others. *)
Theorem C119_names_partial : forall rt members mask rest b, NoDup members ->
  (1 <= List.length members <= 64)%nat -> (List.length members <= 22 \/ 25 <= List.length members)%nat -> 0 <= mask < 2 ^ Z.of_nat (List.length members) ->
  (forall m n, In m members -> ~ dec_text 1 n m) ->
  exists v, ParseData rt innodb_int field_string (store_set members mask ++ rest) (Z.of_nat (set_size members)) (Z.of_nat (set_size members)) true b = ([], Ok (v, b))
  /\ set_denotes members (fmt_v rt v) mask.
Proof.
  intros rt members mask rest b Hn Hl Hx Hm Hnames. destruct (C119_set_refuted rt members mask rest b Hn Hl Hm) as [n [t [En [E [Et [Hd H]]]]]].
  exists (VUint n). split; [exact E|]. rewrite <- Et. apply H. split.
  - intros j Hj. exfalso. exact (Hnames t n (nth_error_In _ _ Hj) Hd).
  - right. rewrite En. destruct (Nat.leb 17 (List.length members) && Nat.leb (List.length members) 24) eqn:L; [|reflexivity].
    apply Z.mod_small. assert (2 ^ Z.of_nat (List.length members) <= 2 ^ 22) by (apply Z.pow_le_mono_r; lia). lia.
Qed.
Print Assumptions C119_names_partial.
(** With 23 or 24 members, those with one of the last two of 24 are other sets. *)
Theorem C119_many_refuted : forall rt members mask rest b, NoDup members ->
  (23 <= List.length members <= 24)%nat -> 2 ^ 22 <= mask < 2 ^ Z.of_nat (List.length members) -> (forall m n, In m members -> ~ dec_text 1 n m) ->
  exists v, ParseData rt innodb_int field_string (store_set members mask ++ rest) (Z.of_nat (set_size members)) (Z.of_nat (set_size members)) true b = ([], Ok (v, b))
  /\ set_denotes members (fmt_v rt v) (mask mod 2 ^ 22) /\ ~ set_denotes members (fmt_v rt v) mask.
Proof.
  intros rt members mask rest b Hn Hl Hm Hnames. destruct (C119_set_refuted rt members mask rest b Hn ltac:(lia) ltac:(lia)) as [n [t [En [E [Et [Hd H]]]]]].
  assert (L : Nat.leb 17 (List.length members) && Nat.leb (List.length members) 24 = true) by lia. rewrite L in En.
  pose proof (Z.mod_pos_bound mask (2 ^ 22) ltac:(lia)) as B.
  exists (VUint n). split; [exact E|]. rewrite <- Et. split.
  - destruct (C119_set_refuted rt members (mask mod 2 ^ 22) rest b Hn ltac:(lia) ltac:(lia)) as [n' [t' [En' [_ [Et' [Hd' H']]]]]].
    rewrite L, Z.mod_mod in En' by lia. assert (t = t') as -> by congruence. apply H'. split; [intros j Hj; exfalso; exact (Hnames t' n' (nth_error_In _ _ Hj) Hd')|].
    right. exact En'.
  - intro X. apply H in X. destruct X as [_ [X|X]]; [exact (Hnames t n X Hd)|lia].
Qed.
Print Assumptions C119_many_refuted.
Example C119_case rt : set_denotes [txt "a"; txt "b"; txt "c"] (fmt_v rt (VUint 5)) 5 /\ set_denotes [txt "a"; txt "b"; txt "c"] (txt "a,c") 5
  /\ set_denotes [txt "2"; txt "1"] (fmt_v rt (VUint 1)) 2 /\ ~ set_denotes [txt "2"; txt "1"] (fmt_v rt (VUint 1)) 1
  /\ store_set [txt "a"; txt "b"; txt "c"] 5 = [5]
  /\ ParseData rt innodb_int field_string (store_set (map (fun n => [200 + Z.of_nat n]) (seq 0 24)) (2 ^ 22 + 1)) 3 3 true false = ([], Ok (VUint 1, false)).
Proof. numbers.
  change (fmt_v rt (VUint 1)) with (txt "1"). change (fmt_v rt (VUint 5)) with (txt "5").
  split; [right; right; split; [discriminate|]; split; [constructor; [cbn; intuition discriminate|constructor]|]; split; [cbn; lia|]; split; [|reflexivity];
    unfold dec_text; repeat split; try (left; reflexivity); try (cbn; lia); constructor; [unfold digit; cbn; lia|constructor]|].
  split; [right; left; split; [discriminate|reflexivity]|]. split; [right; left; split; [discriminate|reflexivity]|].
  split; [|split; reflexivity]. intros [[A _]|[[_ A]|[_ [A _]]]]; [discriminate|discriminate|].
  inversion A as [|x y A1 _]; subst. apply A1. right. left. reflexivity.
Qed.

(** C120: DATETIME before 5.6 is shown as a number that MySQL takes for the
    same date and time, from the year 1000 on ... *)
Theorem C120_datetime_partial : forall rt y mo d h mi s rest b,
  1000 <= y <= 9999 -> 0 <= mo <= 12 -> 0 <= d <= 31 -> 0 <= h <= 23 -> 0 <= mi <= 59 -> 0 <= s <= 59 ->
  exists v, ParseData rt innodb_int field_datetime (store_old_datetime y mo d h mi s ++ rest) 8 8 false b = ([], Ok (v, b))
  /\ read_datetime (fmt_v rt v) = Some [y; mo; d; h; mi; s].
Proof. numbers.
  intros rt y mo d h mi s rest b Hy Hmo Hd Hh Hmi Hs.
  set (n := ((((y * 100 + mo) * 100 + d) * 100 + h) * 100 + mi) * 100 + s).
  destruct (C09_signed_int rt field_datetime 8 n rest b) as [g [E [_ Ht]]]; [cbn; tauto|discriminate|discriminate| |].
  { change (8 * Z.of_nat 8 - 1) with 63. change (2 ^ 63) with 9223372036854775808. unfold n. lia. }
  exists g. split; [exact E|]. destruct Ht as [[_ Ht]|[Hneg _]]; [|exfalso; unfold n in Hneg; lia]. now apply old_datetime_read.
Qed.
Print Assumptions C120_datetime_partial.
(** (before the year 1000 the number has too few digits: MySQL takes the first
    two for a year from 1970 to 2069, or refuses it), ... *)
Theorem C120_early_refuted : forall rt y mo d h mi s rest b,
  1 <= y <= 999 -> 0 <= mo <= 12 -> 0 <= d <= 31 -> 0 <= h <= 23 -> 0 <= mi <= 59 -> 0 <= s <= 59 ->
  exists v, ParseData rt innodb_int field_datetime (store_old_datetime y mo d h mi s ++ rest) 8 8 false b = ([], Ok (v, b))
  /\ forall y' r, read_datetime (fmt_v rt v) = Some (y' :: r) -> 1970 <= y' <= 2069.
Proof. numbers.
  intros rt y mo d h mi s rest b Hy Hmo Hd Hh Hmi Hs.
  set (n := ((((y * 100 + mo) * 100 + d) * 100 + h) * 100 + mi) * 100 + s).
  destruct (C09_signed_int rt field_datetime 8 n rest b) as [g [E [_ Ht]]]; [cbn; tauto|discriminate|discriminate| |].
  { change (8 * Z.of_nat 8 - 1) with 63. change (2 ^ 63) with 9223372036854775808. unfold n. lia. }
  exists g. split; [exact E|]. intros y' r H. destruct Ht as [[_ Ht]|[Hneg _]]; [|exfalso; unfold n in Hneg; lia].
  assert (L : List.length (fmt_v rt g) = 11%nat \/ List.length (fmt_v rt g) = 12%nat \/ List.length (fmt_v rt g) = 13%nat).
  { destruct (Z_lt_ge_dec y 10); [left; apply (dec_digits 10 n _ Ht); change (10 ^ Z.of_nat 10) with 10000000000; change (10 ^ Z.of_nat 11) with 100000000000; unfold n; lia|].
    right. destruct (Z_lt_ge_dec y 100); [left; apply (dec_digits 11 n _ Ht); change (10 ^ Z.of_nat 11) with 100000000000; change (10 ^ Z.of_nat 12) with 1000000000000; unfold n; lia|].
    right. apply (dec_digits 12 n _ Ht); change (10 ^ Z.of_nat 12) with 1000000000000; change (10 ^ Z.of_nat 13) with 10000000000000; unfold n; lia. }
  refine (short_year_range _ _ _ (proj1 Ht) _ _ H); destruct L as [L|[L|L]]; rewrite L; (reflexivity || lia).
Qed.
Print Assumptions C120_early_refuted.
(** ... and so is TIME, of either sign; ... *)
Theorem C120_time_partial : forall rt neg h m s rest b,
  0 <= h <= 838 -> 0 <= m <= 59 -> 0 <= s <= 59 ->
  exists v, ParseData rt innodb_int field_time (store_old_time neg h m s ++ rest) 3 3 false b = ([], Ok (v, b))
  /\ read_time (fmt_v rt v) ((if neg then -1 else 1) * (h * 3600 + m * 60 + s)).
Proof. numbers.
  intros rt neg h m s rest b Hh Hm Hs. set (n := (h * 100 + m) * 100 + s).
  destruct (C09_signed_int rt field_time 3 (if neg then - n else n) rest b) as [g [E [_ Ht]]]; [cbn; tauto|discriminate|discriminate| |].
  { change (8 * Z.of_nat 3 - 1) with 23. change (2 ^ 23) with 8388608. unfold n. destruct neg; lia. }
  exists g. split; [exact E|].
  destruct (old_time_read h m s Hm Hs) as [E1 [E2 E3]]. fold n in E1, E2, E3. assert (Hn : 0 <= n < 10 ^ Z.of_nat 7) by (change (10 ^ Z.of_nat 7) with 10000000; unfold n; lia).
  destruct Ht as [[Hsign Ht]|[Hsign [w [Hw Ht]]]].
  - exists false, (fmt_v rt g). assert (E0 : (if neg then - n else n) = n) by (destruct neg; lia). rewrite E0 in Ht.
    split; [reflexivity|]. split; [apply Ht|]. pose proof (dec_short n _ 7 Ht Hn ltac:(lia)). destruct Ht as [_ [V [L _]]]. split; [lia|]. cbv zeta. rewrite V, E1, E2, E3.
    split; [lia|]. split; [lia|]. destruct neg; [|reflexivity]. assert (n = 0) by lia. unfold n in *. lia.
  - exists true, w. destruct neg; [|lia]. rewrite Z.opp_involutive in Ht.
    split; [exact Hw|]. split; [apply Ht|]. pose proof (dec_short n _ 7 Ht Hn ltac:(lia)). destruct Ht as [_ [V [L _]]]. split; [lia|]. cbv zeta. rewrite V, E1, E2, E3.
    split; [lia|]. split; [lia|]. reflexivity.
Qed.
Print Assumptions C120_time_partial.
(** ... but TIMESTAMP is shown as the count of seconds, which MySQL takes for
    the digits of a date. *)
Theorem C120_timestamp_refuted : forall rt n rest b, 10 ^ 9 <= n < 2 ^ 32 ->
  exists v, ParseData rt innodb_int field_timestamp (store_old_timestamp n ++ rest) 4 4 true b = ([], Ok (v, b))
  /\ (12 < n / 10 ^ 6 mod 100 -> read_datetime (fmt_v rt v) = None)
  /\ (n / 10 ^ 6 mod 100 <= 12 -> forall y mo d h mi s, read_datetime (fmt_v rt v) = Some [y; mo; d; h; mi; s] ->
        y = 2000 + n / 10 ^ 8 /\ mo = n / 10 ^ 6 mod 100 /\ d = n / 10 ^ 4 mod 100 /\ h = n / 100 mod 100 /\ mi = n mod 100 /\ s = 0).
Proof. numbers.
  intros rt n rest b Hn. destruct (C10_unsigned_int rt field_timestamp 4 n rest b) as [E Ht]; [cbn; tauto|discriminate|discriminate|change (256 ^ Z.of_nat 4) with (2 ^ 32); lia|].
  exists (VUint n). split; [exact E|]. destruct Ht as [[_ Ht]|[Hneg _]]; [|lia]. rewrite (old_timestamp_read _ n Hn Ht). cbv zeta. split.
  - intro H. replace (n / 10 ^ 6 mod 100 <=? 12) with false by lia. reflexivity.
  - intros _ y mo d h mi s H. destruct (_ && _) in H; [|discriminate]. injection H as <- <- <- <- <- <-. repeat split.
Qed.
Print Assumptions C120_timestamp_refuted.
(** The same for nine digits, from 1973 to 2001: what MySQL reads, if it does
    not refuse it, is in a year that begins 300 days or more after that time,
    or ended 300 days or more before it. *)
Theorem C120_timestamp_early_refuted : forall rt n rest b, 10 ^ 8 <= n < 10 ^ 9 ->
  exists v, ParseData rt innodb_int field_timestamp (store_old_timestamp n ++ rest) 4 4 true b = ([], Ok (v, b))
  /\ forall y r, read_datetime (fmt_v rt v) = Some (y :: r) ->
       n + 300 * 86400 <= day_number y 1 1 * 86400 \/ (day_number (y + 1) 1 1 + 300) * 86400 <= n.
Proof. numbers.
  intros rt n rest b Hn. destruct (C10_unsigned_int rt field_timestamp 4 n rest b) as [E Ht]; [cbn; tauto|discriminate|discriminate|change (256 ^ Z.of_nat 4) with (2 ^ 32); lia|].
  exists (VUint n). split; [exact E|]. destruct Ht as [[_ Ht]|[Hneg _]]; [|lia]. intros y r. exact (nine_digits _ n y r Hn Ht).
Qed.
Print Assumptions C120_timestamp_early_refuted.
Example C120_case rt : ParseData rt innodb_int field_datetime (store_old_datetime 2015 1 2 3 4 5 ++ [9]) 8 8 false false = ([], Ok (VInt 20150102030405, false))
  /\ read_datetime (txt "20150102030405") = Some [2015; 1; 2; 3; 4; 5]
  /\ ParseData rt innodb_int field_time (store_old_time true 1 2 3) 3 3 false false = ([], Ok (VInt (-10203), false)) /\ read_time (txt "-10203") (-3723)
  /\ ParseData rt innodb_int field_timestamp (store_old_timestamp 1420167845) 4 4 true false = ([], Ok (VUint 1420167845, false)) /\ read_datetime (txt "1420167845") = None
  /\ read_datetime (txt "1301010101") = Some [2013; 1; 1; 1; 1; 0] /\ day_number 2011 3 24 * 86400 < 1301010101 < day_number 2011 3 26 * 86400.
Proof. numbers.
  repeat (split; [reflexivity|]). split; [|repeat split; reflexivity].
  exists true, (txt "10203"). split; [reflexivity|]. split; [apply Forall_forall; intros c H; vm_compute in H; unfold digit; lia|]. split; [cbn; lia|]. cbv zeta. change (dec_val (txt "10203")) with 10203. lia.
Qed.
Example C120_early_case rt : ParseData rt innodb_int field_datetime (store_old_datetime 987 1 2 3 4 5 ++ [9]) 8 8 false false = ([], Ok (VInt 9870102030405, false))
  /\ read_datetime (txt "9870102030405") = None
  /\ ParseData rt innodb_int field_datetime (store_old_datetime 10 2 3 4 5 6) 8 8 false false = ([], Ok (VInt 100203040506, false))
  /\ read_datetime (txt "100203040506") = Some [2010; 2; 3; 4; 5; 6]
  /\ ParseData rt innodb_int field_timestamp (store_old_timestamp 901010101) 4 4 true false = ([], Ok (VUint 901010101, false))
  /\ read_datetime (txt "901010101") = Some [1990; 10; 10; 10; 1; 0] /\ day_number 1998 7 20 * 86400 < 901010101 < day_number 1998 7 22 * 86400.
Proof. numbers. repeat split; reflexivity. Qed.
