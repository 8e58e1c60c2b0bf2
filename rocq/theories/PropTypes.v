(** Properties C100-C103: column types that need more than reading bytes.
    Theorems only; proofs in PTypes.v, the formats in SpecTypes.v. *)
From Verif Require Import GoBase Utils SpecInno SpecText SpecTypes PBase PWire PValue PCal PText PTypes PropValue.
From Verif Require Import Ibdata SpecSql PSql.
Local Open Scope list_scope.

(** C100: false of every DECIMAL value.  The bytes as stored are taken for the
    text, a stray line is printed, and no value of any precision and scale has
    its text for its stored bytes. *)
Theorem C100_decimal_refuted : forall rt neg di df gi gf rest fx u b t,
  digits di -> digits df -> di ++ df <> [] -> int_groups di gi -> frac_groups df gf ->
  decimal_text neg di df t ->
  ParseData rt innodb_fixbinary field_newdecimal (store_decimal neg (gi ++ gf) ++ rest) (len (store_decimal neg (gi ++ gf))) fx u b
  = ([txt "test MYSQL_TYPE_NEWDECIMAL"], Ok (VStr (store_decimal neg (gi ++ gf)), b))
  /\ store_decimal neg (gi ++ gf) <> t.
Proof. numbers.
  intros rt neg di df gi gf rest fx u b t H1 H2 H3 H4 H5 H6. split; [apply decimal_parsed|].
  exact (decimal_wrong neg di df gi gf t H1 H2 H3 H4 H5 H6).
Qed.
Print Assumptions C100_decimal_refuted.
Example C100_case : digits [1; 2; 3; 4; 5; 6; 7; 8; 9; 0] /\ digits [1; 2; 3; 4]
  /\ int_groups [1; 2; 3; 4; 5; 6; 7; 8; 9; 0] [[1]; [2; 3; 4; 5; 6; 7; 8; 9; 0]]
  /\ frac_groups [1; 2; 3; 4] [[1; 2; 3; 4]]
  /\ store_decimal true ([[1]; [2; 3; 4; 5; 6; 7; 8; 9; 0]] ++ [[1; 2; 3; 4]]) = [126; 242; 4; 199; 45; 251; 45]
  /\ store_decimal false ([[1]; [2; 3; 4; 5; 6; 7; 8; 9; 0]] ++ [[1; 2; 3; 4]]) = [129; 13; 251; 56; 210; 4; 210]
  /\ decimal_text true [1; 2; 3; 4; 5; 6; 7; 8; 9; 0] [1; 2; 3; 4] (txt "-1234567890.1234").
Proof.
  repeat split; try (repeat constructor; lia).
  exists [49; 50; 51; 52; 53; 54; 55; 56; 57; 48]. split; [|reflexivity]. unfold dec_text.
  repeat split; try (repeat constructor; unfold digit; lia). right. cbn. lia.
Qed.

(** C101: false.  TIME(n): the fraction is dropped, and with it a negative time
    is shown one second too low (with 60 seconds after 59); what is shown is the
    stored time exactly when the fraction is zero. *)
Definition time_units (neg : bool) (h m s digits f : Z) : Z :=
  (if neg then -1 else 1) * ((h * 3600 + m * 60 + s) * 10 ^ digits + f).
Theorem C101_time_refuted : forall rt neg h m s digits f rest fl fx u b,
  0 <= h <= 838 -> 0 <= m < 60 -> 0 <= s < 60 -> 1 <= digits <= 6 -> 0 <= f < 10 ^ digits ->
  exists s' th tm ts,
    s' = (if neg && (0 <? f) then s + 1 else s)
    /\ ParseData rt innodb_fixbinary field_time (store_time_frac neg h m s digits f ++ rest) fl fx u b
       = ([], Ok (VStr ((if neg && negb ((h =? 0) && (m =? 0) && (s' =? 0)) then [45] else [])
                        ++ th ++ [58] ++ tm ++ [58] ++ ts), b))
    /\ dec_text 2 h th /\ dec_text 2 m tm /\ dec_text 2 s' ts
    /\ (time_units neg h m s' digits 0 = time_units neg h m s digits f <-> f = 0).
Proof. numbers.
  intros rt neg h m s digits f rest fl fx u b Hh Hm Hs Hd Hf.
  destruct (time_frac_bytes neg h m s digits f) as [r E]; try lia. rewrite E, <- app_assoc.
  set (s' := if neg && (0 <? f) then s + 1 else s).
  assert (Hs' : 0 <= s' < 64) by (unfold s'; destruct (neg && (0 <? f)); lia).
  exists s', (fmt_02d h), (fmt_02d m), (fmt_02d s'). split; [reflexivity|].
  split; [|repeat split; try (apply fmt_02d_spec; lia)].
  - unfold ParseData. cbn [Z.eqb Pos.eqb DATA_VARCHAR DATA_CHAR DATA_FIXBINARY MYSQL_TYPE_TIME].
    rewrite time_parse by assumption. reflexivity.
  - unfold time_units, s'. assert (0 < 10 ^ digits) by (apply Z.pow_pos_nonneg; lia).
    destruct neg; cbn [andb]; [destruct (Z.ltb_spec 0 f)|]; lia.
  - intros ->. unfold time_units, s'. change (0 <? 0) with false. rewrite andb_false_r. reflexivity.
Qed.
Print Assumptions C101_time_refuted.
Example C101_time_case rt : store_time_frac true 1 2 59 2 50 = [127; 239; 68; 206]
  /\ ParseData rt innodb_fixbinary field_time (store_time_frac true 1 2 59 2 50 ++ [7]) 4 4 false false
     = ([], Ok (VStr (txt "-01:02:60"), false)).
Proof. numbers. split; reflexivity. Qed.

(** DATETIME(n) of the years 1991 to 2099: the same text whatever the fraction,
    so wrong for all fractions but one. *)
Theorem C101_datetime_refuted : forall rt y mo d h mi s,
  1990 < y < 2100 -> 1 <= mo <= 12 -> 1 <= d <= 31 -> 0 <= h <= 23 -> 0 <= mi <= 59 -> 0 <= s <= 59 ->
  exists ty tmo td th tmi ts,
    dec_text 2 y ty /\ dec_text 2 mo tmo /\ dec_text 2 d td /\ dec_text 2 h th /\ dec_text 2 mi tmi /\ dec_text 2 s ts
    /\ forall digits f rest fl fx u b, 1 <= digits <= 6 -> 0 <= f < 10 ^ digits -> all_bytes rest -> 3 <= (digits + 1) / 2 + len rest ->
    ParseData rt innodb_fixbinary field_datetime (store_datetime_frac y mo d h mi s digits f ++ rest) fl fx u b
    = ([], Ok (VStr (ty ++ [45] ++ tmo ++ [45] ++ td ++ [32] ++ th ++ [58] ++ tmi ++ [58] ++ ts), b)).
Proof. numbers.
  intros rt y mo d h mi s Hy Hmo Hd Hh Hmi Hs.
  exists (fmt_02d y), (fmt_02d mo), (fmt_02d d), (fmt_02d h), (fmt_02d mi), (fmt_02d s).
  do 6 (split; [apply fmt_02d_spec; lia|]). intros digits f rest fl fx u b Hn Hf Hb Hl.
  unfold ParseData. cbn [Z.eqb Pos.eqb DATA_VARCHAR DATA_CHAR DATA_FIXBINARY MYSQL_TYPE_TIME MYSQL_TYPE_TIMESTAMP MYSQL_TYPE_DATETIME].
  unfold store_datetime_frac. rewrite <- app_assoc.
  assert (A : all_bytes (store_frac digits f ++ rest)) by (apply Forall_app; split; [apply be_bytes|exact Hb]).
  rewrite <- (firstn_skipn 3 (store_frac digits f ++ rest)).
  rewrite datetime_parse; try assumption; [reflexivity| |].
  - apply Forall_forall. intros x Hx. apply (proj1 (Forall_forall _ _) A). rewrite <- (firstn_skipn 3 (_ ++ _)). apply in_or_app. left. exact Hx.
  - pose proof (frac_len digits Hn f) as L. unfold len in *. rewrite firstn_length, app_length. lia.
Qed.
Print Assumptions C101_datetime_refuted.
Example C101_datetime_case rt : ParseData rt innodb_fixbinary field_datetime (store_datetime_frac 2019 6 20 9 0 1 6 999999) 8 8 false false
  = ([], Ok (VStr (txt "2019-06-20 09:00:01"), false)).
Proof. numbers. reflexivity. Qed.

(** TIMESTAMP(n): as if there were no fraction. *)
Theorem C101_timestamp_refuted : forall rt t digits f rest fl fx u b,
  0 <= t < 2 ^ 32 -> 1 <= digits <= 6 -> 0 <= f < 10 ^ digits ->
  ParseData rt innodb_fixbinary field_timestamp (store_timestamp_frac t digits f ++ rest) fl fx u b
  = ParseData rt innodb_fixbinary field_timestamp (store_timestamp t) 4 4 u b.
Proof. numbers.
  intros rt t digits f rest fl fx u b Ht Hd Hf. unfold store_timestamp_frac. rewrite <- app_assoc.
  unfold ParseData. cbn [Z.eqb Pos.eqb DATA_VARCHAR DATA_CHAR DATA_FIXBINARY MYSQL_TYPE_TIME MYSQL_TYPE_TIMESTAMP].
  rewrite timestamp_parse by exact Ht. reflexivity.
Qed.
Print Assumptions C101_timestamp_refuted.
Example C101_timestamp_case : store_timestamp_frac 1561021200 3 125 = [93; 11; 75; 16; 4; 226] /\ 0 <= 125 < 10 ^ 3.
Proof. split; [reflexivity|lia]. Qed.

(** Full statement: seconds and fraction are shown as stored.  Proved: for a
    zero fraction; missing (false): any other. *)
Theorem C101_zero_partial : forall rt neg h m s digits rest fl fx u b,
  0 <= h <= 838 -> 0 <= m < 60 -> 0 <= s < 60 -> 1 <= digits <= 6 ->
  exists th tm ts,
    ParseData rt innodb_fixbinary field_time (store_time_frac neg h m s digits 0 ++ rest) fl fx u b
    = ([], Ok (VStr ((if neg && negb ((h =? 0) && (m =? 0) && (s =? 0)) then [45] else [])
                     ++ th ++ [58] ++ tm ++ [58] ++ ts), b))
    /\ dec_text 2 h th /\ dec_text 2 m tm /\ dec_text 2 s ts.
Proof.
  intros rt neg h m s digits rest fl fx u b Hh Hm Hs Hd.
  destruct (C101_time_refuted rt neg h m s digits 0 rest fl fx u b Hh Hm Hs Hd) as [s' [th [tm [ts [E [H1 [H2 [H3 [H4 _]]]]]]]]].
  { split; [lia|]. apply Z.pow_pos_nonneg; lia. }
  change (0 <? 0) with false in E. rewrite andb_false_r in E. subst s'. exists th, tm, ts. repeat split; assumption || apply H1 || apply H2 || apply H3 || apply H4.
Qed.
Print Assumptions C101_zero_partial.

(** C102: an ENUM value is shown as its number; put back, that is the same
    member exactly when no other member has the number for its name. *)
Theorem C102_enum_refuted : forall rt members i rest b, NoDup members ->
  1 <= i <= Z.of_nat (List.length members) -> Z.of_nat (List.length members) <= 65535 ->
  ParseData rt innodb_int field_string (store_enum members i ++ rest) (Z.of_nat (enum_size members)) (Z.of_nat (enum_size members)) true b
  = ([], Ok (VUint i, b))
  /\ dec_text 1 i (fmt_v rt (VUint i))
  /\ (enum_denotes members (fmt_v rt (VUint i)) i <-> forall j, nth_error members j = Some (fmt_v rt (VUint i)) -> 1 + Z.of_nat j = i).
Proof.
  intros rt members i rest b Hn Hi Hl.
  assert (Hd : dec_text 1 i (fmt_v rt (VUint i))).
  { destruct (fmt_d_spec i) as [[_ H]|[H _]]; [exact H|lia]. }
  split; [|split; [exact Hd|exact (enum_back members _ i Hn Hi Hd)]].
  apply (C10_unsigned_int rt field_string (enum_size members) i rest b).
  - unfold enum_size. destruct (_ <=? 255); cbn; tauto.
  - discriminate.
  - discriminate.
  - unfold enum_size. destruct (Z.leb_spec (Z.of_nat (List.length members)) 255);
      [change (256 ^ Z.of_nat 1) with 256|change (256 ^ Z.of_nat 2) with 65536]; lia.
Qed.
Print Assumptions C102_enum_refuted.
(** Full statement: the statement written for a row puts the same member back.
    Proved: if no member's name is a number; missing (false): names like '1'. *)
Theorem C102_names_partial : forall rt members i, NoDup members ->
  1 <= i <= Z.of_nat (List.length members) ->
  (forall m n, In m members -> ~ dec_text 1 n m) ->
  enum_denotes members (fmt_v rt (VUint i)) i.
Proof.
  intros rt members i Hn Hi Hm.
  assert (Hd : dec_text 1 i (fmt_v rt (VUint i))).
  { destruct (fmt_d_spec i) as [[_ H]|[H _]]; [exact H|lia]. }
  apply (enum_back members _ i Hn Hi Hd). intros j Ej. exfalso. exact (Hm _ _ (nth_error_In _ _ Ej) Hd).
Qed.
Print Assumptions C102_names_partial.
Example C102_case rt : enum_denotes [txt "2"; txt "1"] (fmt_v rt (VUint 1)) 2
  /\ ~ enum_denotes [txt "2"; txt "1"] (fmt_v rt (VUint 1)) 1 /\ enum_denotes [txt "red"; txt "green"] (fmt_v rt (VUint 2)) 2.
Proof. change (fmt_v rt (VUint 1)) with (txt "1"). change (fmt_v rt (VUint 2)) with (txt "2").
  split; [reflexivity|]. split; [cbn; lia|]. cbn. split; [|lia]. unfold dec_text.
  repeat split; try (repeat constructor; unfold digit; lia).
Qed.

(** C103: false.  A value is lost exactly if its column's type is not one of
    ten: the old DECIMAL (11) and the geometry types (14 and up) have it shown
    as NULL, whatever is stored. *)
Theorem C103_exact_refuted : forall rt ty mysql data fl fx u b,
  ((exists o b', ParseData rt ty mysql data fl fx u b = (o, Ok (VNil, b'))) <-> ~ In ty [1; 2; 3; 4; 5; 6; 9; 10; 12; 13]).
Proof. exact nil_types. Qed.
Print Assumptions C103_exact_refuted.
Theorem C103_null_refuted : forall rt ty mysql data fl fx u b c,
  ~ In ty [1; 2; 3; 4; 5; 6; 9; 10; 12; 13] ->
  ParseData rt ty mysql data fl fx u b = ([], Ok (VNil, b))
  /\ (c_value c = VNil -> c_binary c = false -> c_mysql c <> field_bit -> column_text rt c = txt "NULL").
Proof.
  intros rt ty mysql data fl fx u b c H. split; [exact (nil_value rt ty mysql data fl fx u b H)|].
  intros Hv Hb Hm. rewrite column_text_null; [rewrite Hb; reflexivity|rewrite Hv; reflexivity|exact Hm].
Qed.
Print Assumptions C103_null_refuted.
(** Full statement: every value that is not NULL is shown.  Proved: for the ten
    types; missing (false): the others. *)
Theorem C103_types_partial : forall rt ty mysql data fl fx u b o v b',
  In ty [1; 2; 3; 4; 5; 6; 9; 10; 12; 13] -> ParseData rt ty mysql data fl fx u b = (o, Ok (v, b')) -> v <> VNil.
Proof.
  intros rt ty mysql data fl fx u b o v b' H E ->. apply (proj1 (nil_types rt ty mysql data fl fx u b)); [|exact H].
  exists o, b'. exact E.
Qed.
Print Assumptions C103_types_partial.
Example C103_case rt : ParseData rt 14 255 [0; 0; 0; 0; 1; 1; 0; 0; 0] 9 0 false true = ([], Ok (VNil, true))
  /\ ~ In 14 [1; 2; 3; 4; 5; 6; 9; 10; 12; 13].
Proof. split; [reflexivity|]. cbn. lia. Qed.
