(** Properties C09-C22: column values.  Theorems only; proofs in PValue.v,
    PCal.v and PText.v.  In each statement the column's bytes are followed by
    arbitrary further bytes of the page, as ParseData is called. *)
From Verif Require Import GoBase Utils SpecInno SpecText PBase PWire PValue PCal PText.
Local Open Scope list_scope.

(** From the numbers of the specification to the constants of the code. *)
Ltac numbers :=
  change innodb_varchar with DATA_VARCHAR;
  change innodb_char with DATA_CHAR;
  change innodb_fixbinary with DATA_FIXBINARY;
  change innodb_binary with DATA_BINARY;
  change innodb_blob with DATA_BLOB;
  change innodb_int with DATA_INT;
  change innodb_float with DATA_FLOAT;
  change innodb_double with DATA_DOUBLE;
  change innodb_decimal with DATA_DECIMAL;
  change innodb_varmysql with DATA_VARMYSQL;
  change innodb_mysql with DATA_MYSQL;
  change field_timestamp with MYSQL_TYPE_TIMESTAMP;
  change field_date with MYSQL_TYPE_DATE;
  change field_time with MYSQL_TYPE_TIME;
  change field_datetime with MYSQL_TYPE_DATETIME;
  change field_year with MYSQL_TYPE_YEAR;
  change field_varchar with MYSQL_TYPE_VARCHAR;
  change field_bit with MYSQL_TYPE_BIT;
  change field_newdecimal with MYSQL_TYPE_NEWDECIMAL;
  change field_string with MYSQL_TYPE_STRING.

(** C09 *)
Theorem C09_signed_int : forall rt mysql k v rest b,
  In k [1; 2; 3; 4; 8]%nat -> mysql <> field_date -> mysql <> field_year ->
  - 2 ^ (8 * Z.of_nat k - 1) <= v < 2 ^ (8 * Z.of_nat k - 1) ->
  exists g, ParseData rt innodb_int mysql (store_int k v ++ rest) (Z.of_nat k) (Z.of_nat k) false b
            = ([], Ok (g, b)) /\ (g = VInt v \/ g = VUint v) /\ int_text v (fmt_v rt g).
Proof. numbers.
  intros rt mysql k v rest b Hk H1 H2 Hv.
  destruct (int_column rt mysql k v rest b Hk H1 H2 Hv) as [g [E Hg]]. exists g. split; [exact E|].
  split; [exact Hg|]. destruct Hg as [-> | ->]; exact (fmt_d_spec v).
Qed.
Print Assumptions C09_signed_int.
Example C09_case rt : ParseData rt innodb_int 9 (store_int 3 (-8388608) ++ [1]) 3 3 false false = ([], Ok (VInt (-8388608), false))
  /\ ParseData rt innodb_int 8 (store_int 8 (-2)) 8 8 false true = ([], Ok (VInt (-2), true)).
Proof. numbers. split; reflexivity. Qed.

(** C10 *)
Theorem C10_unsigned_int : forall rt mysql k v rest b,
  In k [1; 2; 4; 8]%nat -> mysql <> field_date -> mysql <> field_year ->
  0 <= v < 256 ^ Z.of_nat k ->
  ParseData rt innodb_int mysql (store_uint k v ++ rest) (Z.of_nat k) (Z.of_nat k) true b = ([], Ok (VUint v, b))
  /\ int_text v (fmt_v rt (VUint v)).
Proof. numbers.
  intros rt mysql k v rest b Hk H1 H2 Hv. split; [|exact (fmt_d_spec v)].
  rewrite uint_column, get_uint by assumption. reflexivity.
Qed.
Print Assumptions C10_unsigned_int.
Example C10_case rt : ParseData rt innodb_int 8 (store_uint 8 18446744073709551615 ++ [1]) 8 8 true false
  = ([], Ok (VUint 18446744073709551615, false)).
Proof. numbers. reflexivity. Qed.

(** C11: false from 2^22 on (mask 0x3FFFFF). *)
Theorem C11_unsigned_mediumint_refuted : exists v, 0 <= v < 256 ^ 3 /\
  forall rt mysql rest b, mysql <> field_date -> mysql <> field_year ->
  ParseData rt innodb_int mysql (store_uint 3 v ++ rest) 3 3 true b <> ([], Ok (VUint v, b)).
Proof. numbers.
  exists (2 ^ 22). split; [lia|]. intros rt mysql rest b H1 H2.
  rewrite (uint_column rt mysql 3) by assumption. vm_compute. congruence.
Qed.
Print Assumptions C11_unsigned_mediumint_refuted.
(** Full statement: the value is v.  Proved: it is v modulo 2^22, hence v
    exactly below 2^22; missing (false): values from 2^22 on. *)
Theorem C11_unsigned_mediumint_partial : forall rt mysql v rest b,
  mysql <> field_date -> mysql <> field_year -> 0 <= v < 256 ^ 3 ->
  ParseData rt innodb_int mysql (store_uint 3 v ++ rest) 3 3 true b = ([], Ok (VUint (v mod 2 ^ 22), b)).
Proof. numbers.
  intros rt mysql v rest b H1 H2 Hv. rewrite (uint_column rt mysql 3) by assumption.
  change (Z.of_nat 3) with 3. rewrite get_uint3 by exact Hv. reflexivity.
Qed.
Print Assumptions C11_unsigned_mediumint_partial.
Theorem C11_exact_refuted : forall rt mysql v rest b,
  mysql <> field_date -> mysql <> field_year -> 0 <= v < 256 ^ 3 ->
  (ParseData rt innodb_int mysql (store_uint 3 v ++ rest) 3 3 true b = ([], Ok (VUint v, b)) <-> v < 2 ^ 22).
Proof.
  intros rt mysql v rest b H1 H2 Hv. rewrite C11_unsigned_mediumint_partial by assumption. split.
  - intro E. assert (E' : v mod 2 ^ 22 = v) by congruence. pose proof (Z.mod_pos_bound v (2 ^ 22)). lia.
  - intro H. now rewrite Z.mod_small by lia.
Qed.
Print Assumptions C11_exact_refuted.
Example C11_case rt : ParseData rt innodb_int 9 (store_uint 3 4194303 ++ [1]) 3 3 true false = ([], Ok (VUint 4194303, false)).
Proof. numbers. reflexivity. Qed.

(** C12: false for BIT columns of 3 bytes (wrong mask) and 5-7 bytes (panic). *)
Theorem C12_bit_refuted : forall rt u b,
  (exists v, 0 <= v < 2 ^ 24 /\ ParseData rt innodb_fixbinary field_bit (store_uint 3 v) 3 3 u b
     <> ([], Ok (VUint v, b)))
  /\ (forall k v rest, In k [5; 6; 7]%nat ->
      ParseData rt innodb_fixbinary field_bit (store_uint k v ++ rest) (Z.of_nat k) (Z.of_nat k) u b
      = ([], Panic)).
Proof. numbers.
  intros rt u b. split.
  - exists (2 ^ 22). split; [lia|]. vm_compute. congruence.
  - intros k v rest Hk. rewrite bit_column, get_uint_short by assumption. reflexivity.
Qed.
Print Assumptions C12_bit_refuted.
(** Full statement: widths 1 to 8.  Proved: widths 1, 2, 4 and 8, and 3 below
    2^22; missing (false): the rest of width 3, widths 5, 6, 7. *)
Theorem C12_bit_partial : forall rt k v rest u b,
  (In k [1; 2; 4; 8]%nat /\ 0 <= v < 256 ^ Z.of_nat k) \/ (k = 3%nat /\ 0 <= v < 2 ^ 22) ->
  ParseData rt innodb_fixbinary field_bit (store_uint k v ++ rest) (Z.of_nat k) (Z.of_nat k) u b
  = ([], Ok (VUint v, b)).
Proof. numbers.
  intros rt k v rest u b [[Hk Hv]|[-> Hv]].
  - rewrite bit_column, get_uint by assumption. reflexivity.
  - rewrite bit_column. change (Z.of_nat 3) with 3.
    rewrite get_uint3 by (change (256 ^ 3) with (2 ^ 24); lia). cbn [bind]. now rewrite Z.mod_small by exact Hv.
Qed.
Print Assumptions C12_bit_partial.
Theorem C12_exact_refuted : forall rt k v rest u b, (1 <= k <= 8)%nat -> 0 <= v < 256 ^ Z.of_nat k ->
  (ParseData rt innodb_fixbinary field_bit (store_uint k v ++ rest) (Z.of_nat k) (Z.of_nat k) u b = ([], Ok (VUint v, b))
   <-> k = 1%nat \/ k = 2%nat \/ k = 3%nat /\ v < 2 ^ 22 \/ k = 4%nat \/ k = 8%nat).
Proof.
  intros rt k v rest u b Hk Hv. split.
  - intro E. assert (C : In k [5; 6; 7]%nat \/ k = 3%nat \/ k = 1%nat \/ k = 2%nat \/ k = 4%nat \/ k = 8%nat) by (cbn [In]; lia).
    destruct C as [C|[->|C]]; [|right; right; left; split; [reflexivity|]|intuition].
    + destruct (C12_bit_refuted rt u b) as [_ P]. rewrite (P k v rest C) in E. discriminate E.
    + revert E. numbers. rewrite bit_column. change (Z.of_nat 3) with 3 in *. rewrite get_uint3 by exact Hv. cbn [bind]. intro E.
      assert (E' : v mod 2 ^ 22 = v) by congruence. pose proof (Z.mod_pos_bound v (2 ^ 22)). lia.
  - intro H. apply C12_bit_partial. destruct H as [->|[->|[[-> H]|[->| ->]]]]; [left|left|right|left|left]; split; try exact Hv; try (cbn [In]; tauto); try reflexivity; lia.
Qed.
Print Assumptions C12_exact_refuted.
Example C12_case rt : ParseData rt innodb_fixbinary field_bit (store_uint 2 0x155 ++ [9; 9]) 2 2 true false
  = ([], Ok (VUint 0x155, false)).
Proof. numbers. reflexivity. Qed.

(** C13 *)
Theorem C13_date : forall rt y m d rest fl fx u b,
  0 <= y < 16384 -> 0 <= m < 16 -> 0 <= d < 32 ->
  exists ty tm td,
    ParseData rt innodb_int field_date (store_date y m d ++ rest) fl fx u b
    = ([], Ok (VStr (ty ++ [45] ++ tm ++ [45] ++ td), b))
    /\ dec_text 2 y ty /\ dec_text 2 m tm /\ dec_text 2 d td.
Proof. numbers.
  intros rt y m d rest fl fx u b Hy Hm Hd. exists (fmt_02d y), (fmt_02d m), (fmt_02d d).
  split; [|repeat split; apply fmt_02d_spec; lia].
  unfold ParseData. cbn [Z.eqb Pos.eqb DATA_INT DATA_VARCHAR DATA_CHAR DATA_FIXBINARY DATA_BINARY MYSQL_TYPE_DATE].
  rewrite date_parse by assumption. reflexivity.
Qed.
Print Assumptions C13_date.
Example C13_case rt : ParseData rt innodb_int field_date (store_date 2019 12 31 ++ [7]) 3 3 false false
  = ([], Ok (VStr (bs "2019-12-31"), false)).
Proof. numbers. reflexivity. Qed.

(** C14 *)
Theorem C14_time : forall rt neg h m s rest fl fx u b,
  0 <= h <= 838 -> 0 <= m < 60 -> 0 <= s < 60 ->
  exists th tm ts,
    ParseData rt innodb_fixbinary field_time (store_time neg h m s ++ rest) fl fx u b
    = ([], Ok (VStr ((if neg && negb ((h =? 0) && (m =? 0) && (s =? 0)) then [45] else [])
                     ++ th ++ [58] ++ tm ++ [58] ++ ts), b))
    /\ dec_text 2 h th /\ dec_text 2 m tm /\ dec_text 2 s ts.
Proof. numbers.
  intros rt neg h m s rest fl fx u b Hh Hm Hs. exists (fmt_02d h), (fmt_02d m), (fmt_02d s).
  split; [|repeat split; apply fmt_02d_spec; lia].
  unfold ParseData. cbn [Z.eqb Pos.eqb DATA_VARCHAR DATA_CHAR DATA_FIXBINARY MYSQL_TYPE_TIME].
  rewrite time_parse by lia. reflexivity.
Qed.
Print Assumptions C14_time.
Example C14_case rt : ParseData rt innodb_fixbinary field_time (store_time true 838 59 1 ++ [7]) 3 3 false false
  = ([], Ok (VStr (bs "-838:59:01"), false)).
Proof. numbers. reflexivity. Qed.

(** C15: false outside the years 1991-2099. *)
Theorem C15_datetime_refuted : exists y mo d h mi s rest,
  1000 <= y <= 9999 /\ valid_date y mo d /\ 0 <= h < 24 /\ 0 <= mi < 60 /\ 0 <= s < 60 /\ len rest = 3 /\
  forall rt u b ty tmo td th tmi ts,
    dec_text 2 y ty -> dec_text 2 mo tmo -> dec_text 2 d td -> dec_text 2 h th -> dec_text 2 mi tmi ->
    dec_text 2 s ts ->
    ParseData rt innodb_fixbinary field_datetime (store_datetime y mo d h mi s ++ rest) 5 5 u b
    <> ([], Ok (VStr (ty ++ [45] ++ tmo ++ [45] ++ td ++ [32] ++ th ++ [58] ++ tmi ++ [58] ++ ts), b)).
Proof. numbers.
  exists 1985, 10, 26, 1, 21, 0, [0; 0; 0].
  split; [lia|]. split; [unfold valid_date; cbn; lia|]. do 3 (split; [lia|]). split; [reflexivity|].
  intros rt u b ty tmo td th tmi ts H1 H2 H3 H4 H5 H6.
  rewrite (dec_text_unique _ _ _ _ H1 (fmt_02d_spec 1985 ltac:(lia))), (dec_text_unique _ _ _ _ H2 (fmt_02d_spec 10 ltac:(lia))),
    (dec_text_unique _ _ _ _ H3 (fmt_02d_spec 26 ltac:(lia))), (dec_text_unique _ _ _ _ H4 (fmt_02d_spec 1 ltac:(lia))),
    (dec_text_unique _ _ _ _ H5 (fmt_02d_spec 21 ltac:(lia))), (dec_text_unique _ _ _ _ H6 (fmt_02d_spec 0 ltac:(lia))).
  vm_compute. congruence.
Qed.
Print Assumptions C15_datetime_refuted.
(** Full statement: all years.  Proved: the years 1991 to 2099, whatever at
    least three bytes follow; missing (false): other years. *)
Theorem C15_datetime_partial : forall rt y mo d h mi s r3 rest fl fx u b,
  1990 < y < 2100 -> 1 <= mo <= 12 -> 1 <= d <= 31 -> 0 <= h <= 23 -> 0 <= mi <= 59 -> 0 <= s <= 59 ->
  all_bytes r3 -> len r3 = 3 ->
  exists ty tmo td th tmi ts,
    ParseData rt innodb_fixbinary field_datetime (store_datetime y mo d h mi s ++ r3 ++ rest) fl fx u b
    = ([], Ok (VStr (ty ++ [45] ++ tmo ++ [45] ++ td ++ [32] ++ th ++ [58] ++ tmi ++ [58] ++ ts), b))
    /\ dec_text 2 y ty /\ dec_text 2 mo tmo /\ dec_text 2 d td
    /\ dec_text 2 h th /\ dec_text 2 mi tmi /\ dec_text 2 s ts.
Proof. numbers.
  intros rt y mo d h mi s r3 rest fl fx u b Hy Hmo Hd Hh Hmi Hs Hb Hl.
  exists (fmt_02d y), (fmt_02d mo), (fmt_02d d), (fmt_02d h), (fmt_02d mi), (fmt_02d s).
  split; [|repeat split; apply fmt_02d_spec; lia].
  unfold ParseData. cbn [Z.eqb Pos.eqb DATA_VARCHAR DATA_CHAR DATA_FIXBINARY MYSQL_TYPE_TIME MYSQL_TYPE_TIMESTAMP MYSQL_TYPE_DATETIME].
  rewrite datetime_parse by assumption. reflexivity.
Qed.
Print Assumptions C15_datetime_partial.
(** With fewer than three bytes after the five of the value the tool panics. *)
Theorem C15_datetime_short_refuted : forall rt y mo d h mi s rest fl fx u b, len rest < 3 ->
  ParseData rt innodb_fixbinary field_datetime (store_datetime y mo d h mi s ++ rest) fl fx u b = ([], Panic).
Proof. numbers.
  intros rt y mo d h mi s rest fl fx u b Hl. unfold ParseData.
  cbn [Z.eqb Pos.eqb DATA_VARCHAR DATA_CHAR DATA_FIXBINARY MYSQL_TYPE_TIME MYSQL_TYPE_TIMESTAMP MYSQL_TYPE_DATETIME].
  unfold ParseDateTime, GetTimeFormat. rewrite mrf8_short; [reflexivity|].
  rewrite app_length. unfold store_datetime. rewrite be_length. unfold len in Hl. lia.
Qed.
Print Assumptions C15_datetime_short_refuted.
(** In every other year the text depends on bytes that are not the value's:
    different bytes after it, different text, so at most one is right. *)
Theorem C15_years_refuted : forall rt y mo d h mi s r3 r3' rest rest' fl fx u b,
  0 <= y <= 9999 -> ~ 1990 < y < 2100 -> 1 <= mo <= 12 -> 1 <= d <= 31 -> 0 <= h <= 23 -> 0 <= mi <= 59 -> 0 <= s <= 59 ->
  all_bytes r3 -> len r3 = 3 -> all_bytes r3' -> len r3' = 3 -> r3 <> r3' ->
  ParseData rt innodb_fixbinary field_datetime (store_datetime y mo d h mi s ++ r3 ++ rest) fl fx u b
  <> ParseData rt innodb_fixbinary field_datetime (store_datetime y mo d h mi s ++ r3' ++ rest') fl fx u b.
Proof. numbers.
  intros rt y mo d h mi s r3 r3' rest rest' fl fx u b Hy Hny Hmo Hd Hh Hmi Hs Hb Hl Hb' Hl' Hne E.
  unfold ParseData in E. cbn [Z.eqb Pos.eqb DATA_VARCHAR DATA_CHAR DATA_FIXBINARY MYSQL_TYPE_TIME MYSQL_TYPE_TIMESTAMP MYSQL_TYPE_DATETIME] in E.
  destruct (datetime_other y mo d h mi s r3 rest Hy Hny Hmo Hd Hh Hmi Hs Hb Hl) as [E1 [P1 R1]].
  destruct (datetime_other y mo d h mi s r3' rest' Hy Hny Hmo Hd Hh Hmi Hs Hb' Hl') as [E2 [P2 R2]].
  rewrite E1, E2 in E. cbn [bind] in E.
  assert (X : forall p q : bytes, (([] : list bytes), Ok (VStr p, b)) = ([], Ok (VStr q, b)) -> p = q) by congruence.
  apply X, old_text_inj in E; [|exact P1|exact P2]. clear X E1 E2 P1 P2. apply Hne.
  assert (V : be_val r3 = be_val r3') by lia. apply be_val_inj; assumption || (unfold len in *; lia).
Qed.
Print Assumptions C15_years_refuted.
Example C15_years_case rt : ParseData rt innodb_fixbinary field_datetime (store_datetime 1985 10 26 1 21 0 ++ [0; 0; 0]) 5 5 false false
  = ([], Ok (VStr (bs "2639-68-19 09:55:52"), false))
  /\ ParseData rt innodb_fixbinary field_datetime (store_datetime 1985 10 26 1 21 0 ++ [0; 0; 1]) 5 5 false false
  = ([], Ok (VStr (bs "2639-68-19 09:55:53"), false)).
Proof. split; reflexivity. Qed.
Example C15_case rt : ParseData rt innodb_fixbinary field_datetime (store_datetime 2019 2 28 23 59 7 ++ [255; 1; 2] ++ [3]) 5 5 false false
  = ([], Ok (VStr (bs "2019-02-28 23:59:07"), false)).
Proof. numbers. reflexivity. Qed.

(** C16 *)
Theorem C16_old_datetime : forall (sign : bool) y mo d h mi s rest,
  0 <= y < 10000 -> 0 <= mo < 100 -> 0 <= d < 100 -> 0 <= h < 100 -> 0 <= mi < 100 -> 0 <= s < 100 ->
  exists ty tmo td th tmi ts,
    ParseDateTime (be 8 ((if sign then 2 ^ 63 else 0) + old_datetime y mo d h mi s) ++ rest)
    = Ok (ty ++ [45] ++ tmo ++ [45] ++ td ++ [32] ++ th ++ [58] ++ tmi ++ [58] ++ ts)
    /\ dec_text 2 y ty /\ dec_text 2 mo tmo /\ dec_text 2 d td
    /\ dec_text 2 h th /\ dec_text 2 mi tmi /\ dec_text 2 s ts.
Proof. numbers.
  intros sign y mo d h mi s rest Hy Hmo Hd Hh Hmi Hs.
  exists (fmt_02d y), (fmt_02d mo), (fmt_02d d), (fmt_02d h), (fmt_02d mi), (fmt_02d s).
  split; [|repeat split; apply fmt_02d_spec; lia].
  rewrite old_datetime_parse by assumption. reflexivity.
Qed.
Print Assumptions C16_old_datetime.
Example C16_case : ParseDateTime (be 8 (2 ^ 63 + 19450508235901) ++ [1]) = Ok (bs "1945-05-08 23:59:01").
Proof. numbers. reflexivity. Qed.

(** C17: false; the hour is that of a 12-hour clock, without AM/PM. *)
Theorem C17_timestamp_refuted : forall rt, (forall t, rt_zone rt t = 0) ->
  exists t1 t2 u b, 0 <= t1 < 2 ^ 32 /\ 0 <= t2 < 2 ^ 32 /\ t1 <> t2 /\
  ParseData rt innodb_fixbinary field_timestamp (store_timestamp t1) 4 4 u b
  = ParseData rt innodb_fixbinary field_timestamp (store_timestamp t2) 4 4 u b.
Proof. numbers.
  intros rt Hz. exists 1561021200, (1561021200 + 43200), false, false.
  do 3 (split; [lia|]).
  unfold ParseData. cbn [Z.eqb Pos.eqb DATA_VARCHAR DATA_CHAR DATA_FIXBINARY MYSQL_TYPE_TIME MYSQL_TYPE_TIMESTAMP].
  unfold ParseTimeStamp.
  change (MatchReadFrom4 (store_timestamp 1561021200)) with (Ok 1561021200).
  change (MatchReadFrom4 (store_timestamp (1561021200 + 43200))) with (Ok (1561021200 + 43200)).
  cbn [bind]. rewrite !Hz. vm_compute. reflexivity.
Qed.
Print Assumptions C17_timestamp_refuted.
(** Full statement: date, 24-hour hour, minutes, seconds exact.  Proved: all
    of it with the hour on a 12-hour clock; missing (false): AM/PM. *)
Theorem C17_timestamp_partial : forall rt t rest fl fx ub b,
  0 <= t < 2 ^ 32 -> - 86400 < rt_zone rt t < 86400 ->
  exists y m d h mi s ty tm td th tmi ts,
    valid_date y m d /\ 0 <= h < 24 /\ 0 <= mi < 60 /\ 0 <= s < 60
    /\ day_number y m d * 86400 + h * 3600 + mi * 60 + s = t + rt_zone rt t
    /\ ParseData rt innodb_fixbinary field_timestamp (store_timestamp t ++ rest) fl fx ub b
       = ([], Ok (VStr (ty ++ [45] ++ tm ++ [45] ++ td ++ [32] ++ th ++ [58] ++ tmi ++ [58] ++ ts), b))
    /\ dec_text 4 y ty /\ dec_text 2 m tm /\ dec_text 2 d td
    /\ dec_text 2 (if h mod 12 =? 0 then 12 else h mod 12) th /\ dec_text 2 mi tmi /\ dec_text 2 s ts.
Proof. numbers.
  intros rt t rest fl fx ub b Ht Hz.
  destruct (timestamp_parse rt t rest Ht Hz) as (y & m & d & h & mi & s & ty & tm & td & th & tmi & ts & H1 & H2 & H3 & H4 & H5 & H6 & H7).
  exists y, m, d, h, mi, s, ty, tm, td, th, tmi, ts. repeat (split; [assumption|]). split; [|exact H7].
  unfold ParseData. cbn [Z.eqb Pos.eqb DATA_VARCHAR DATA_CHAR DATA_FIXBINARY MYSQL_TYPE_TIME MYSQL_TYPE_TIMESTAMP].
  rewrite H6. reflexivity.
Qed.
Print Assumptions C17_timestamp_partial.
(** The text has the right hour exactly in the morning after one o'clock and
    in the hour after noon. *)
Theorem C17_exact_refuted : forall rt t rest fl fx ub b,
  0 <= t < 2 ^ 32 -> - 86400 < rt_zone rt t < 86400 ->
  exists y m d h mi s ty tm td th tmi ts,
    valid_date y m d /\ 0 <= h < 24 /\ 0 <= mi < 60 /\ 0 <= s < 60
    /\ day_number y m d * 86400 + h * 3600 + mi * 60 + s = t + rt_zone rt t
    /\ dec_text 4 y ty /\ dec_text 2 m tm /\ dec_text 2 d td /\ dec_text 2 h th /\ dec_text 2 mi tmi /\ dec_text 2 s ts
    /\ (ParseData rt innodb_fixbinary field_timestamp (store_timestamp t ++ rest) fl fx ub b
        = ([], Ok (VStr (ty ++ [45] ++ tm ++ [45] ++ td ++ [32] ++ th ++ [58] ++ tmi ++ [58] ++ ts), b)) <-> 1 <= h <= 12).
Proof.
  intros rt t rest fl fx ub b Ht Hz.
  destruct (C17_timestamp_partial rt t rest fl fx ub b Ht Hz) as (y & m & d & h & mi & s & ty & tm & td & th & tmi & ts & H1 & H2 & H3 & H4 & H5 & E & T1 & T2 & T3 & T4 & T5 & T6).
  exists y, m, d, h, mi, s, ty, tm, td, (fmt_02d h), tmi, ts. do 8 (split; [assumption|]). split; [apply fmt_02d_spec; lia|]. do 2 (split; [assumption|]).
  rewrite E. split.
  - intro X. assert (X' : th ++ [58] ++ tmi ++ [58] ++ ts = fmt_02d h ++ [58] ++ tmi ++ [58] ++ ts).
    { assert (Y : (ty ++ [45] ++ tm ++ [45] ++ td ++ [32]) ++ th ++ [58] ++ tmi ++ [58] ++ ts = (ty ++ [45] ++ tm ++ [45] ++ td ++ [32]) ++ fmt_02d h ++ [58] ++ tmi ++ [58] ++ ts)
        by (rewrite <- !app_assoc; congruence). now apply app_inv_head in Y. }
    apply app_inv_tail in X'. subst th. destruct T4 as [_ [V _]]. destruct (fmt_02d_spec h ltac:(lia)) as [_ [V' _]]. rewrite V' in V.
    destruct (Z.eqb_spec (h mod 12) 0); lia.
  - intro Hh. replace (if h mod 12 =? 0 then 12 else h mod 12) with h in T4 by (destruct (Z.eqb_spec (h mod 12) 0); lia).
    rewrite (dec_text_unique _ _ _ _ T4 (fmt_02d_spec h ltac:(lia))). reflexivity.
Qed.
Print Assumptions C17_exact_refuted.
Example C17_case : ParseTimeStamp {| rt_fmt32 := fun _ => []; rt_fmt64 := fun _ => []; rt_zone := fun _ => 28800 |}
  (store_timestamp 1561021200 ++ [1]) = Ok (bs "2019-06-20 05:00:00").
Proof. numbers. reflexivity. Qed.

(** C18: false for the zero year. *)
Theorem C18_year_refuted : exists byte, 0 <= byte < 256 /\ forall rt rest u b,
  ParseData rt innodb_int field_year (byte :: rest) 1 1 u b <> ([], Ok (VUint (year_of_byte byte), b)).
Proof. numbers. exists 0. split; [lia|]. intros rt rest u b. vm_compute. congruence. Qed.
Print Assumptions C18_year_refuted.
(** Full statement: all bytes.  Proved: 1901 to 2155; missing (false): 0000. *)
Theorem C18_year_partial : forall rt byte rest fl fx u b, 0 < byte < 256 ->
  ParseData rt innodb_int field_year (byte :: rest) fl fx u b = ([], Ok (VUint (year_of_byte byte), b)).
Proof. numbers.
  intros rt byte rest fl fx u b Hb. unfold year_of_byte. destruct (Z.eqb_spec byte 0); [lia|].
  unfold ParseData. cbn [Z.eqb Pos.eqb DATA_INT DATA_VARCHAR DATA_CHAR DATA_FIXBINARY DATA_BINARY MYSQL_TYPE_DATE MYSQL_TYPE_YEAR].
  unfold MatchReadFrom1. rewrite index_0. cbn [bind]. do 4 f_equal. lia.
Qed.
Print Assumptions C18_year_partial.
Theorem C18_exact_refuted : forall rt byte rest fl fx u b, 0 <= byte < 256 ->
  (ParseData rt innodb_int field_year (byte :: rest) fl fx u b = ([], Ok (VUint (year_of_byte byte), b)) <-> byte <> 0).
Proof.
  intros rt byte rest fl fx u b Hb. split; [|intro H; apply C18_year_partial; lia]. intros E ->. vm_compute in E. discriminate E.
Qed.
Print Assumptions C18_exact_refuted.
Example C18_case rt : ParseData rt innodb_int field_year [119; 4] 1 1 true false = ([], Ok (VUint 2019, false)).
Proof. numbers. reflexivity. Qed.

(** C19 *)
Theorem C19_text_exact : forall rt type mysql s rest fx u b,
  (type = innodb_varchar \/ type = innodb_char \/ type = innodb_varmysql \/ (type = innodb_blob /\ b = false)
   \/ (type = innodb_fixbinary /\ ~ In mysql [field_time; field_timestamp; field_datetime;
         field_bit; field_newdecimal; field_string])) ->
  ParseData rt type mysql (s ++ rest) (len s) fx u b = ([], Ok (VStr s, b)).
Proof. numbers.
  intros rt type mysql s rest fx u b H.
  destruct H as [->|[->|[->|[[-> ->]|[-> H]]]]]; unfold ParseData;
    rewrite ?slice_to_app by reflexivity; try reflexivity.
  cbn [Z.eqb Pos.eqb DATA_FIXBINARY DATA_VARCHAR DATA_CHAR In] in *.
  repeat match goal with |- context [mysql =? ?c] => destruct (Z.eqb_spec mysql c); [subst; exfalso; apply H; auto 10|] end.
  reflexivity.
Qed.
Print Assumptions C19_text_exact.
Theorem C19_text_never_past_end : forall rt type mysql d fl fx u b,
  (type = innodb_varchar \/ type = innodb_char \/ type = innodb_varmysql \/ (type = innodb_blob /\ b = false)) ->
  len d < fl -> ParseData rt type mysql d fl fx u b = ([], Panic).
Proof. numbers.
  intros rt type mysql d fl fx u b H Hl.
  destruct H as [->|[->|[->|[-> ->]]]]; unfold ParseData; rewrite ?slice_to_panic by lia; reflexivity.
Qed.
Print Assumptions C19_text_never_past_end.
Example C19_case rt : ParseData rt innodb_varmysql 15 ([0xFF; 0; 39; 92] ++ [5]) 4 0 false false
  = ([], Ok (VStr [0xFF; 0; 39; 92], false)).
Proof. numbers. reflexivity. Qed.

(** C20: false; leading blanks and other white space are removed as well. *)
Theorem C20_char_refuted : exists s n, s <> [] /\ last s 0 <> 32 /\ forall rt mysql rest fx u b,
  ParseData rt innodb_mysql mysql ((s ++ repeat 32 n) ++ rest) (len (s ++ repeat 32 n)) fx u b
  <> ([], Ok (VStr s, b)).
Proof. numbers.
  exists [32; 97], 3%nat. split; [discriminate|]. split; [cbn; lia|]. intros rt mysql rest fx u b.
  unfold ParseData. rewrite slice_to_app by reflexivity. vm_compute. congruence.
Qed.
Print Assumptions C20_char_refuted.
(** Full statement: exactly the trailing pad spaces are removed.  Proved: (1)
    only white space at either end is ever removed, for every byte string; (2)
    the result is exact when the value does not start or end with white
    space; missing (false): values with white space at either end. *)
Theorem C20_char_only_white_space_partial : forall rt mysql s rest fx u b, all_bytes s ->
  exists l t r, Forall white l /\ Forall white r
    /\ ParseData rt innodb_mysql mysql (s ++ rest) (len s) fx u b = ([], Ok (VStr t, b))
    /\ s = flat_map utf8 l ++ t ++ flat_map utf8 r.
Proof. numbers.
  intros rt mysql s rest fx u b Hb. destruct (trim_space_infix s Hb) as [l [r [Hl [Hr E]]]].
  exists l, (trim_space s), r. split; [exact Hl|]. split; [exact Hr|]. split; [|exact E].
  unfold ParseData. rewrite slice_to_app by reflexivity. reflexivity.
Qed.
Print Assumptions C20_char_only_white_space_partial.
Theorem C20_char_exact_partial : forall rt mysql body n rest fx u b, all_bytes body -> tight body ->
  ParseData rt innodb_mysql mysql ((body ++ repeat 32 n) ++ rest) (len (body ++ repeat 32 n)) fx u b
  = ([], Ok (VStr body, b)).
Proof. numbers.
  intros rt mysql body n rest fx u b Hb Ht. unfold ParseData. rewrite slice_to_app by reflexivity. cbn [bind].
  change (([], Ok (VStr (trim_space (body ++ repeat 32 n)), b)) = ([] : list bytes, Ok (VStr body, b))).
  now rewrite (proj2 (trim_space_exact body n Hb) Ht).
Qed.
Print Assumptions C20_char_exact_partial.
(** Exactly these: a value with white space at either end always comes back
    changed. *)
Theorem C20_exact_refuted : forall rt mysql body n rest fx u b, all_bytes body ->
  (ParseData rt innodb_mysql mysql ((body ++ repeat 32 n) ++ rest) (len (body ++ repeat 32 n)) fx u b = ([], Ok (VStr body, b))
   <-> ~ starts_white body /\ ~ ends_white body).
Proof. numbers.
  intros rt mysql body n rest fx u b Hb. unfold ParseData. rewrite slice_to_app by reflexivity. cbn [bind].
  change ((([], Ok (VStr (trim_space (body ++ repeat 32 n)), b)) = ([] : list bytes, Ok (VStr body, b))) <-> tight body).
  rewrite <- (trim_space_exact body n Hb). split; [congruence|now intros ->].
Qed.
Print Assumptions C20_exact_refuted.
Example C20_case rt : ParseData rt innodb_mysql 254 ((utf8 0x4E2D ++ [32] ++ utf8 0x6587) ++ repeat 32 5 ++ [7]) 12 0 false false
  = ([], Ok (VStr (utf8 0x4E2D ++ [32] ++ utf8 0x6587), false)).
Proof. numbers. reflexivity. Qed.

(** C21 *)
Theorem C21_binary_hex : forall rt type mysql s rest fx u b, all_bytes s ->
  (type = innodb_blob /\ b = true) \/ (type = innodb_binary /\ mysql = field_varchar)
  \/ (type = innodb_fixbinary /\ mysql = field_string) ->
  exists t, ParseData rt type mysql (s ++ rest) (len s) fx u b = ([], Ok (VStr t, true))
            /\ unhex t = Some s.
Proof. numbers.
  intros rt type mysql s rest fx u b Hb H. exists (ParseBlob s). split; [|exact (unhex_blob s Hb)].
  destruct H as [[-> ->]|[[-> ->]|[-> ->]]]; unfold ParseData; rewrite slice_to_app by reflexivity; reflexivity.
Qed.
Print Assumptions C21_binary_hex.
Example C21_case rt : ParseData rt innodb_blob 252 ([0; 255; 39] ++ [1]) 3 0 false true = ([], Ok (VStr (bs "00ff27"), true)).
Proof. numbers. reflexivity. Qed.

(** C22 *)
Theorem C22_float_bits : forall rt mysql bits rest fl fx u b,
  (0 <= bits < 2 ^ 32 ->
   ParseData rt innodb_float mysql (store_float bits ++ rest) fl fx u b = ([], Ok (VF32 bits, b))) /\
  (0 <= bits < 2 ^ 64 ->
   ParseData rt innodb_double mysql (store_double bits ++ rest) fl fx u b = ([], Ok (VF64 bits, b))).
Proof. numbers.
  intros rt mysql bits rest fl fx u b. unfold ParseData, ParseFloat, ParseDouble, store_float, store_double.
  split; intro H; cbn [Z.eqb Pos.eqb DATA_FLOAT DATA_DOUBLE DATA_INT DATA_VARCHAR DATA_CHAR DATA_FIXBINARY DATA_BINARY].
  - rewrite slice_to_app by (rewrite len_le; reflexivity). cbn [bind].
    rewrite <- (app_nil_r (le 4 bits)), le4_app by (apply le_bytes || apply le_length). cbn [bind].
    rewrite le_val_le_small by exact H. reflexivity.
  - rewrite slice_to_app by (rewrite len_le; reflexivity). cbn [bind].
    rewrite <- (app_nil_r (le 8 bits)), le8_app by (apply le_bytes || apply le_length). cbn [bind].
    rewrite le_val_le_small by exact H. reflexivity.
Qed.
Print Assumptions C22_float_bits.
Example C22_case rt : ParseData rt innodb_float 4 (store_float 0x3FC00000 ++ [1]) 4 4 false false = ([], Ok (VF32 0x3FC00000, false)).
Proof. numbers. reflexivity. Qed.
