(** C120: TIMESTAMPs of tables made before MySQL 5.6, before March 1973. *)
From Coq Require Import ZifyBool.
From Verif Require Import GoBase Utils SpecInno SpecText SpecSql SpecTypes SpecOld PBase PWire PValue PCal PText PTypes PropValue POld PropOld.
Local Open Scope list_scope.
Local Open Scope Z_scope.

(** The moment of a date and time, in seconds since 1970. *)
Definition moment (y mo d h mi s : Z) : Z := day_number y mo d * 86400 + h * 3600 + mi * 60 + s.
(** Time zones: whole quarters of an hour, 14 hours at most. *)
Definition zone (z : Z) : Prop := exists k, z = 900 * k /\ -50400 <= z <= 50400.

Lemma month_start mo : 0 <= mo <= 12 -> days_before_month 1970 (Z.to_nat mo) = nth (Z.to_nat mo) [0; 0; 31; 59; 90; 120; 151; 181; 212; 243; 273; 304; 334] 0.
Proof.
  intro H. assert (C : mo = 0 \/ mo = 1 \/ mo = 2 \/ mo = 3 \/ mo = 4 \/ mo = 5 \/ mo = 6 \/ mo = 7 \/ mo = 8 \/ mo = 9 \/ mo = 10 \/ mo = 11 \/ mo = 12) by lia.
  repeat (destruct C as [->|C]; [reflexivity|]). subst mo. reflexivity.
Qed.
Lemma month_range y m : (m <= 12)%nat -> 0 <= days_before_month y m <= 341.
Proof.
  intro H. assert (X : forall k, 28 <= month_days y k <= 31) by (intro k; unfold month_days; repeat match goal with |- context [if ?b then _ else _] => destruct b end; lia).
  assert (G : forall k, 0 <= days_before_month y k <= 31 * (Z.of_nat k - 1) \/ (k = 0%nat /\ days_before_month y k = 0)).
  { induction k as [|k IH]; [right; split; reflexivity|]. left. destruct k as [|k]; [cbn; lia|]. destruct IH as [IH|[IH _]]; [|discriminate]. specialize (X (Z.of_nat (S k))).
    change (days_before_month y (S (S k))) with (days_before_month y (S k) + month_days y (Z.of_nat (S k))). lia. }
  specialize (G m). lia.
Qed.
(** Other years than 1970 are too far away. *)
Lemma later y mo d : 1971 <= y -> 0 <= mo <= 12 -> 0 <= d -> 364 + 365 * (y - 1971) <= day_number y mo d.
Proof.
  intros Hy Hm Hd. unfold day_number. pose proof (month_range y (Z.to_nat mo) ltac:(lia)). change (days_before_year 1970) with 719162. unfold days_before_year. lia.
Qed.
Lemma earlier y mo d : y <= 1969 -> 0 <= mo <= 12 -> d <= 31 -> day_number y mo d <= 7.
Proof.
  intros Hy Hm Hd. unfold day_number. pose proof (month_range y (Z.to_nat mo) ltac:(lia)). change (days_before_year 1970) with 719162. unfold days_before_year. lia.
Qed.
Lemma first_days mo d : 0 <= mo <= 12 -> day_number 1970 mo d = nth (Z.to_nat mo) [0; 0; 31; 59; 90; 120; 151; 181; 212; 243; 273; 304; 334] 0 + d - 1.
Proof. intro H. unfold day_number. rewrite month_start by exact H. lia. Qed.
Ltac each_month mo := let C := fresh in
  assert (C : mo = 0 \/ mo = 1 \/ mo = 2 \/ mo = 3 \/ mo = 4 \/ mo = 5 \/ mo = 6 \/ mo = 7 \/ mo = 8 \/ mo = 9 \/ mo = 10 \/ mo = 11 \/ mo = 12) by lia;
  repeat (destruct C as [C|C]); rewrite C in *.
Ltac never Hm mo := unfold moment; rewrite first_days by exact Hm; each_month mo; match goal with |- context [nth ?a ?l ?x] => let v := eval vm_compute in (nth a l x) in change (nth a l x) with v end; lia.
Lemma five n mo d z : n = 70000 + mo * 10 + d -> 0 <= mo <= 12 -> 0 <= d <= 9 -> zone z -> n + z <> moment 1970 mo d 0 0 0.
Proof. intros -> Hm Hd [k [-> Hz]]. never Hm mo. Qed.
Lemma six n mo d z : n = 700000 + mo * 100 + d -> 0 <= mo <= 12 -> 0 <= d <= 31 -> zone z -> n + z <> moment 1970 mo d 0 0 0.
Proof. intros -> Hm Hd [k [-> Hz]]. never Hm mo. Qed.
Lemma seven n mo d h z : n = 7000000 + mo * 1000 + d * 10 + h -> 0 <= mo <= 12 -> 0 <= d <= 31 -> 0 <= h <= 9 -> zone z -> n + z <> moment 1970 mo d h 0 0.
Proof. intros -> Hm Hd Hh [k [-> Hz]]. never Hm mo. Qed.
Lemma eight n mo d z : n = 19700000 + mo * 100 + d -> 0 <= mo <= 12 -> 0 <= d <= 31 -> zone z -> n + z <> moment 1970 mo d 0 0 0.
Proof. intros -> Hm Hd [k [-> Hz]]. never Hm mo. Qed.
Ltac opened H Hv B := unfold dec_val in Hv; cbn [fold_left] in Hv; unfold read_datetime, year_width, dec_val in H;
  cbn [List.length Nat.eqb orb fields firstn skipn dec_val fold_left nth] in H; match type of H with (if ?x then _ else _) = _ => destruct x eqn:B; [|discriminate H] end;
  injection H as <- <- <- <- <- <-; unfold full_year; cbn [Nat.eqb].
(** Every text of one to eight digits. *)
Lemma few_digits n t z y mo d h mi s : 0 <= n < 10 ^ 8 -> dec_text 1 n t -> zone z -> read_datetime t = Some [y; mo; d; h; mi; s] -> n + z <> moment y mo d h mi s.
Proof.
  intros Hn Ht Hz H. pose proof (dec_short n t 8 Ht ltac:(lia) ltac:(lia)) as L. destruct Ht as [Hd [Hv [_ [_ Hh]]]].
  destruct t as [|a [|b [|c [|e [|f t]]]]]; try discriminate H.
  assert (D : Forall digit [a; b; c; e; f] /\ Forall digit t) by (split; [apply (Forall_app digit [a; b; c; e; f] t) in Hd; tauto|apply (Forall_app digit [a; b; c; e; f] t) in Hd; tauto]).
  destruct D as [D1 D2]. assert (N : a <> 48) by (cbn [List.length Nat.max hd] in Hh; lia).
  assert (Q : 48 <= a <= 57 /\ 48 <= b <= 57 /\ 48 <= c <= 57 /\ 48 <= e <= 57 /\ 48 <= f <= 57) by (do 5 (inversion D1 as [|? ? ? D1']; clear D1; rename D1' into D1; subst); unfold digit in *; lia).
  clear D1 Hd Hh. destruct Q as (Qa & Qb & Qc & Qe & Qf).
  assert (T : forall x l, Forall digit (x :: l) -> 48 <= x <= 57 /\ Forall digit l) by (intros x l X; inversion X; now split).
  destruct t as [|g [|i [|j [|k t]]]].
  - opened H Hv B. set (mo := (c - 48) * 10 + (e - 48)) in *. set (d := (f - 48)) in *. set (yy := (a - 48) * 10 + (b - 48)) in *.
    assert (E : n = yy * 1000 + mo * 10 + d) by (unfold yy, mo, d; lia). assert (R : 10 <= yy <= 99 /\ 0 <= mo <= 12 /\ 0 <= d <= 9) by (unfold yy, mo, d in *; lia). clearbody yy mo d. clear - E R Hz.
    destruct (Z.eq_dec yy 70) as [->|Ny]; [apply five; [lia|lia|lia|exact Hz]|]. destruct Hz as [k [-> Hz]]. assert (1971 <= (if yy <? 70 then 2000 + yy else 1900 + yy)) by (destruct (Z.ltb_spec yy 70); lia).
    unfold moment. pose proof (later (if yy <? 70 then 2000 + yy else 1900 + yy) mo d ltac:(lia) ltac:(lia) ltac:(lia)). lia.
  - opened H Hv B. apply T in D2 as [Qg _]. set (mo := (c - 48) * 10 + (e - 48)) in *. set (d := (f - 48) * 10 + (g - 48)) in *. set (yy := (a - 48) * 10 + (b - 48)) in *.
    assert (E : n = yy * 10000 + mo * 100 + d) by (unfold yy, mo, d; lia). assert (R : 10 <= yy <= 99 /\ 0 <= mo <= 12 /\ 0 <= d <= 31) by (unfold yy, mo, d in *; lia). clearbody yy mo d. clear - E R Hz.
    destruct (Z.eq_dec yy 70) as [->|Ny]; [apply six; [lia|lia|lia|exact Hz]|]. destruct Hz as [k [-> Hz]]. assert (1971 <= (if yy <? 70 then 2000 + yy else 1900 + yy)) by (destruct (Z.ltb_spec yy 70); lia).
    unfold moment. pose proof (later (if yy <? 70 then 2000 + yy else 1900 + yy) mo d ltac:(lia) ltac:(lia) ltac:(lia)). lia.
  - opened H Hv B. apply T in D2 as [Qg D2]. apply T in D2 as [Qi _]. set (mo := (c - 48) * 10 + (e - 48)) in *. set (d := (f - 48) * 10 + (g - 48)) in *. set (yy := (a - 48) * 10 + (b - 48)) in *. set (h := (i - 48)) in *.
    assert (E : n = yy * 100000 + mo * 1000 + d * 10 + h) by (unfold yy, mo, d, h; lia). assert (R : 10 <= yy <= 99 /\ 0 <= mo <= 12 /\ 0 <= d <= 31 /\ 0 <= h <= 9) by (unfold yy, mo, d, h in *; lia). clearbody yy mo d h. clear - E R Hz.
    destruct (Z.eq_dec yy 70) as [->|Ny]; [apply seven; [lia|lia|lia|lia|exact Hz]|]. destruct Hz as [k [-> Hz]]. assert (1971 <= (if yy <? 70 then 2000 + yy else 1900 + yy)) by (destruct (Z.ltb_spec yy 70); lia).
    unfold moment. pose proof (later (if yy <? 70 then 2000 + yy else 1900 + yy) mo d ltac:(lia) ltac:(lia) ltac:(lia)). lia.
  - opened H Hv B. apply T in D2 as [Qg D2]. apply T in D2 as [Qi D2]. apply T in D2 as [Qj _]. set (mo := (f - 48) * 10 + (g - 48)) in *. set (d := (i - 48) * 10 + (j - 48)) in *.
    set (yy := (((a - 48) * 10 + (b - 48)) * 10 + (c - 48)) * 10 + (e - 48)) in *.
    assert (E : n = yy * 10000 + mo * 100 + d) by (unfold yy, mo, d; lia). assert (R : 1000 <= yy <= 9999 /\ 0 <= mo <= 12 /\ 0 <= d <= 31) by (unfold yy, mo, d in *; lia). clearbody yy mo d. clear - E R Hz.
    destruct (Z.eq_dec yy 1970) as [->|Ny]; [apply eight; [lia|lia|lia|exact Hz]|]. destruct Hz as [k [-> Hz]]. unfold moment. destruct (Z_le_gt_dec 1971 yy).
    + pose proof (later yy mo d ltac:(lia) ltac:(lia) ltac:(lia)). lia.
    + pose proof (earlier yy mo d ltac:(lia) ltac:(lia) ltac:(lia)). lia.
  - cbn [List.length] in L. lia.
Qed.
(** C120: up to eight digits, until March 1973: whatever the time zone, MySQL
    reads another time, if it does not refuse the digits. *)
Theorem C120_timestamp_first_refuted : forall rt n rest b, 0 <= n < 10 ^ 8 ->
  exists v, ParseData rt innodb_int field_timestamp (store_old_timestamp n ++ rest) 4 4 true b = ([], Ok (v, b))
  /\ forall z y mo d h mi s, zone z -> read_datetime (fmt_v rt v) = Some [y; mo; d; h; mi; s] -> n + z <> moment y mo d h mi s.
Proof. numbers.
  intros rt n rest b Hn. destruct (C10_unsigned_int rt field_timestamp 4 n rest b) as [E Ht]; [cbn; tauto|discriminate|discriminate|change (256 ^ Z.of_nat 4) with (2 ^ 32); lia|].
  exists (VUint n). split; [exact E|]. destruct Ht as [[_ Ht]|[Hneg _]]; [|lia]. intros z y mo d h mi s Hz H. exact (few_digits n _ z y mo d h mi s Hn Ht Hz H).
Qed.
Print Assumptions C120_timestamp_first_refuted.
(** The closest: 00:26:57 of the day that is read. *)
Example C120_first_case rt : ParseData rt innodb_int field_timestamp (store_old_timestamp 19700817) 4 4 true false = ([], Ok (VUint 19700817, false))
  /\ read_datetime (txt "19700817") = Some [1970; 8; 17; 0; 0; 0] /\ 19700817 = moment 1970 8 17 0 26 57 /\ zone 0 /\ zone (-12600)
  /\ read_datetime (txt "701231") = Some [1970; 12; 31; 0; 0; 0] /\ read_datetime (txt "7003231") = Some [1970; 3; 23; 1; 0; 0] /\ read_datetime (txt "86400") = None.
Proof. numbers. split; [reflexivity|]. split; [reflexivity|]. split; [reflexivity|]. split; [exists 0; lia|]. split; [exists (-14); lia|]. repeat split. Qed.
