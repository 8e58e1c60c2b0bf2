(** Proofs for PropOld.v. *)
From Verif Require Import GoBase Utils SpecInno SpecText SpecTypes SpecOld PBase PWire PValue PCal PText PTypes PropValue.
Local Open Scope list_scope.

(** Decimal texts cut in two *)
Lemma dec_cut a t : Forall digit t -> (a <= List.length t)%nat ->
  dec_val (firstn a t) = dec_val t / 10 ^ (len t - Z.of_nat a) /\ dec_val (skipn a t) = dec_val t mod 10 ^ (len t - Z.of_nat a)
  /\ Forall digit (skipn a t) /\ List.length (skipn a t) = (List.length t - a)%nat.
Proof.
  intros Hd Ha. assert (L : len (skipn a t) = len t - Z.of_nat a) by (unfold len; rewrite skipn_length; lia).
  assert (Hs : Forall digit (skipn a t)) by (rewrite <- (firstn_skipn a t) in Hd; apply Forall_app in Hd; tauto).
  pose proof (dec_val_bound _ Hs) as B. rewrite L in B.
  assert (E : dec_val t = dec_val (firstn a t) * 10 ^ (len t - Z.of_nat a) + dec_val (skipn a t)) by (rewrite <- (firstn_skipn a t) at 1; rewrite dec_val_app, L; reflexivity).
  rewrite E. split; [apply (Z.div_unique _ _ _ (dec_val (skipn a t))); lia|]. split; [apply (Z.mod_unique _ _ (dec_val (firstn a t))); lia|].
  split; [exact Hs|apply skipn_length].
Qed.
Lemma dec_digits k n t : dec_text 1 n t -> 10 ^ Z.of_nat k <= n < 10 ^ Z.of_nat (S k) -> List.length t = S k.
Proof.
  intros H Hn. pose proof (dec_text_long 1 n t (Z.of_nat k) H ltac:(lia) (proj1 Hn)) as L. destruct H as [Hd [Hv [Hl [_ Hh]]]].
  assert (len t <= Z.of_nat (S k)); [|unfold len in *; lia].
  destruct t as [|c r]; [cbn in Hl; lia|]. destruct Hh as [Hh|Hh]; [cbn in Hh; unfold len; cbn [List.length]; lia|].
  cbn [hd] in Hh. pose proof (dec_val_lead c r Hd Hh) as B. rewrite Hv in B.
  assert (X : 10 ^ len r < 10 ^ Z.of_nat (S k)) by lia. apply Z.pow_lt_mono_r_iff in X; unfold len in *; cbn [List.length] in *; lia.
Qed.
Lemma fields_more w r t : (1 <= List.length t)%nat -> fields (w :: r) t = dec_val (firstn w t) :: fields r (skipn w t).
Proof. destruct t; [cbn; lia|reflexivity]. Qed.

Lemma dec_part w k a r t : Forall digit t -> List.length t = (w + k)%nat -> dec_val t = a * 10 ^ Z.of_nat k + r -> 0 <= r < 10 ^ Z.of_nat k ->
  dec_val (firstn w t) = a /\ dec_val (skipn w t) = r /\ Forall digit (skipn w t) /\ List.length (skipn w t) = k.
Proof.
  intros Hd L V B. destruct (dec_cut w t Hd ltac:(lia)) as [A1 [A2 [A3 A4]]].
  assert (E : len t - Z.of_nat w = Z.of_nat k) by (unfold len; lia). rewrite E in A1, A2.
  split; [rewrite A1; symmetry; apply (Z.div_unique _ _ _ r); lia|]. split; [rewrite A2; symmetry; apply (Z.mod_unique _ _ a); lia|].
  split; [exact A3|lia].
Qed.

Lemma old_datetime_read t y mo d h mi s : 1000 <= y <= 9999 -> 0 <= mo <= 12 -> 0 <= d <= 31 -> 0 <= h <= 23 -> 0 <= mi <= 59 -> 0 <= s <= 59 ->
  dec_text 1 (((((y * 100 + mo) * 100 + d) * 100 + h) * 100 + mi) * 100 + s) t -> read_datetime t = Some [y; mo; d; h; mi; s].
Proof.
  intros Hy Hmo Hd Hh Hmi Hs Ht. assert (L : List.length t = 14%nat).
  { apply (dec_digits 13 _ t Ht). change (10 ^ Z.of_nat 13) with 10000000000000. change (10 ^ Z.of_nat 14) with 100000000000000. lia. }
  destruct Ht as [H0 [V0 _]]. unfold read_datetime. rewrite L. change (year_width 14) with 4%nat.
  assert (P : forall k, 10 ^ Z.of_nat (S k) = 10 * 10 ^ Z.of_nat k) by (intro k; rewrite Nat2Z.inj_succ, Z.pow_succ_r by lia; reflexivity).
  destruct (dec_part 4 10 y ((((mo * 100 + d) * 100 + h) * 100 + mi) * 100 + s) t H0 L) as [A1 [V1 [H1 L1]]]; [rewrite V0, !P; change (10 ^ Z.of_nat 0) with 1; lia|rewrite !P; change (10 ^ Z.of_nat 0) with 1; lia|].
  rewrite fields_more by lia. rewrite A1. set (t1 := skipn 4 t) in *. clearbody t1.
  destruct (dec_part 2 8 mo (((d * 100 + h) * 100 + mi) * 100 + s) t1 H1 L1) as [A2 [V2 [H2 L2]]]; [rewrite V1, !P; change (10 ^ Z.of_nat 0) with 1; lia|rewrite !P; change (10 ^ Z.of_nat 0) with 1; lia|].
  rewrite fields_more by lia. rewrite A2. set (t2 := skipn 2 t1) in *. clearbody t2.
  destruct (dec_part 2 6 d ((h * 100 + mi) * 100 + s) t2 H2 L2) as [A3 [V3 [H3 L3]]]; [rewrite V2, !P; change (10 ^ Z.of_nat 0) with 1; lia|rewrite !P; change (10 ^ Z.of_nat 0) with 1; lia|].
  rewrite fields_more by lia. rewrite A3. set (t3 := skipn 2 t2) in *. clearbody t3.
  destruct (dec_part 2 4 h (mi * 100 + s) t3 H3 L3) as [A4 [V4 [H4 L4]]]; [rewrite V3, !P; change (10 ^ Z.of_nat 0) with 1; lia|rewrite !P; change (10 ^ Z.of_nat 0) with 1; lia|].
  rewrite fields_more by lia. rewrite A4. set (t4 := skipn 2 t3) in *. clearbody t4.
  destruct (dec_part 2 2 mi s t4 H4 L4) as [A5 [V5 [H5 L5]]]; [rewrite V4, !P; change (10 ^ Z.of_nat 0) with 1; lia|rewrite !P; change (10 ^ Z.of_nat 0) with 1; lia|].
  rewrite fields_more by lia. rewrite A5. set (t5 := skipn 2 t4) in *. clearbody t5.
  rewrite fields_more by lia. rewrite firstn_all2 by lia. rewrite V5. cbn [nth]. change (full_year 4 y) with y.
  replace (mo <=? 12) with true by lia. replace (d <=? 31) with true by lia. replace (h <=? 23) with true by lia. replace (mi <=? 59) with true by lia. replace (s <=? 59) with true by lia.
  reflexivity.
Qed.

Lemma old_timestamp_read t n : 10 ^ 9 <= n < 2 ^ 32 -> dec_text 1 n t ->
  read_datetime t = let mo := n / 10 ^ 6 mod 100 in let d := n / 10 ^ 4 mod 100 in let h := n / 100 mod 100 in let mi := n mod 100 in
    if (mo <=? 12) && (d <=? 31) && (h <=? 23) && (mi <=? 59) then Some [2000 + n / 10 ^ 8; mo; d; h; mi; 0] else None.
Proof.
  intros Hn Ht. assert (L : List.length t = 10%nat).
  { apply (dec_digits 9 _ t Ht). change (10 ^ Z.of_nat 9) with 1000000000. change (10 ^ Z.of_nat 10) with 10000000000. lia. }
  destruct Ht as [H0 [V0 _]]. unfold read_datetime. rewrite L. change (year_width 10) with 2%nat.
  assert (P : forall k, 10 ^ Z.of_nat (S k) = 10 * 10 ^ Z.of_nat k) by (intro k; rewrite Nat2Z.inj_succ, Z.pow_succ_r by lia; reflexivity).
  assert (D1 : n = n / 100 * 100 + n mod 100) by (pose proof (Z.div_mod n 100 ltac:(lia)); lia).
  assert (D2 : n / 100 = n / 10 ^ 4 * 100 + n / 100 mod 100) by (change (10 ^ 4) with (100 * 100); rewrite <- Z.div_div by lia; pose proof (Z.div_mod (n / 100) 100 ltac:(lia)); lia).
  assert (D3 : n / 10 ^ 4 = n / 10 ^ 6 * 100 + n / 10 ^ 4 mod 100) by (change (10 ^ 6) with (10 ^ 4 * 100); rewrite <- Z.div_div by lia; pose proof (Z.div_mod (n / 10 ^ 4) 100 ltac:(lia)); lia).
  assert (D4 : n / 10 ^ 6 = n / 10 ^ 8 * 100 + n / 10 ^ 6 mod 100) by (change (10 ^ 8) with (10 ^ 6 * 100); rewrite <- Z.div_div by lia; pose proof (Z.div_mod (n / 10 ^ 6) 100 ltac:(lia)); lia).
  assert (D5 : n / 10 ^ 8 < 70) by (apply Z.div_lt_upper_bound; change (10 ^ 8) with 100000000; lia).
  pose proof (Z.mod_pos_bound n 100 ltac:(lia)) as B1. pose proof (Z.mod_pos_bound (n / 100) 100 ltac:(lia)) as B2.
  pose proof (Z.mod_pos_bound (n / 10 ^ 4) 100 ltac:(lia)) as B3. pose proof (Z.mod_pos_bound (n / 10 ^ 6) 100 ltac:(lia)) as B4. cbv zeta.
  set (mi := n mod 100) in *. set (h := n / 100 mod 100) in *. set (d := n / 10 ^ 4 mod 100) in *. set (mo := n / 10 ^ 6 mod 100) in *. set (y := n / 10 ^ 8) in *.
  assert (V : n = (((y * 100 + mo) * 100 + d) * 100 + h) * 100 + mi) by lia. rewrite V in V0. clearbody mi h d mo y. clear D1 D2 D3 D4.
  destruct (dec_part 2 8 y (((mo * 100 + d) * 100 + h) * 100 + mi) t H0 L) as [A1 [V1 [H1 L1]]]; [rewrite V0, !P; change (10 ^ Z.of_nat 0) with 1; lia|rewrite !P; change (10 ^ Z.of_nat 0) with 1; lia|].
  rewrite fields_more by lia. rewrite A1. set (t1 := skipn 2 t) in *. clearbody t1.
  destruct (dec_part 2 6 mo ((d * 100 + h) * 100 + mi) t1 H1 L1) as [A2 [V2 [H2 L2]]]; [rewrite V1, !P; change (10 ^ Z.of_nat 0) with 1; lia|rewrite !P; change (10 ^ Z.of_nat 0) with 1; lia|].
  rewrite fields_more by lia. rewrite A2. set (t2 := skipn 2 t1) in *. clearbody t2.
  destruct (dec_part 2 4 d (h * 100 + mi) t2 H2 L2) as [A3 [V3 [H3 L3]]]; [rewrite V2, !P; change (10 ^ Z.of_nat 0) with 1; lia|rewrite !P; change (10 ^ Z.of_nat 0) with 1; lia|].
  rewrite fields_more by lia. rewrite A3. set (t3 := skipn 2 t2) in *. clearbody t3.
  destruct (dec_part 2 2 h mi t3 H3 L3) as [A4 [V4 [H4 L4]]]; [rewrite V3, !P; change (10 ^ Z.of_nat 0) with 1; lia|rewrite !P; change (10 ^ Z.of_nat 0) with 1; lia|].
  rewrite fields_more by lia. rewrite A4. set (t4 := skipn 2 t3) in *. clearbody t4.
  rewrite fields_more by lia. rewrite firstn_all2 by lia. rewrite V4. rewrite skipn_all2 by lia. cbn [nth fields].
  change (0 <=? 59) with true. rewrite andb_true_r. unfold full_year. cbn [Nat.eqb]. replace (y <? 70) with true by lia. reflexivity.
Qed.

Lemma dec_short n t k : dec_text 1 n t -> 0 <= n < 10 ^ Z.of_nat k -> (1 <= k)%nat -> (List.length t <= k)%nat.
Proof.
  intros [D [V [_ [_ Hh]]]] Hn Hk. destruct t as [|c r]; [cbn; lia|]. destruct Hh as [Hh|Hh]; [cbn [List.length Nat.max] in Hh |- *; lia|].
  cbn [hd] in Hh. pose proof (dec_val_lead c r D Hh) as B. rewrite V in B.
  assert (X : 10 ^ len r < 10 ^ Z.of_nat k) by lia. apply Z.pow_lt_mono_r_iff in X; unfold len in *; cbn [List.length]; lia.
Qed.
Lemma old_time_read h m s : 0 <= m <= 59 -> 0 <= s <= 59 -> let n := (h * 100 + m) * 100 + s in n / 10000 = h /\ n / 100 mod 100 = m /\ n mod 100 = s.
Proof.
  intros Hm Hs n. assert (E : n / 100 = h * 100 + m) by (symmetry; apply (Z.div_unique _ _ _ s); unfold n; lia).
  split; [change 10000 with (100 * 100); rewrite <- Z.div_div, E by lia; symmetry; apply (Z.div_unique _ _ _ m); lia|].
  split; [rewrite E; symmetry; apply (Z.mod_unique _ _ h); lia|symmetry; apply (Z.mod_unique _ _ (h * 100 + m)); unfold n; lia].
Qed.

(** SET *)
Lemma split_digits t : Forall digit t -> split_commas t = [t].
Proof.
  induction 1 as [|c t Hc Ht IH]; [reflexivity|]. cbn [split_commas]. rewrite IH. unfold digit in Hc. destruct (Z.eqb_spec c 44); [lia|reflexivity].
Qed.
Lemma set_back members t n mask : NoDup members -> dec_text 1 n t -> (List.length t < 22)%nat -> 0 <= n < 2 ^ Z.of_nat (List.length members) ->
  (set_denotes members t mask <-> match member 0 members t with Some j => mask = 2 ^ j | None => mask = n end).
Proof.
  intros Hn Ht Hl Hb. pose proof Ht as [Hd [Hv [Hlen _]]]. assert (Hne : t <> []) by (intros ->; cbn in Hlen; lia).
  unfold set_denotes. rewrite (split_digits t Hd). cbn [set_named]. pose proof (member_spec members t 0) as HM.
  destruct (member 0 members t) as [j|].
  - rewrite Z.lor_0_r. destruct HM as [i [_ Hi]]. split.
    + intros [[E _]|[[_ E]|[_ [E _]]]]; [contradiction|congruence|]. exfalso. inversion E as [|x y E1 _]; subst. exact (E1 (nth_error_In _ _ Hi)).
    + intros ->. right. left. split; [exact Hne|reflexivity].
  - split.
    + intros [[E _]|[[_ E]|[_ [_ [_ [E _]]]]]]; [contradiction|discriminate|]. destruct E as [_ [E _]]. congruence.
    + intros ->. right. right. split; [exact Hne|]. split; [constructor; [exact HM|constructor]|]. split; [exact Hl|]. split; [exact Ht|lia].
Qed.
Lemma set_sizes members : (1 <= List.length members <= 64)%nat ->
  In (set_size members) [1; 2; 3; 4; 8]%nat /\ 2 ^ Z.of_nat (List.length members) <= 256 ^ Z.of_nat (set_size members)
  /\ (set_size members = 3%nat <-> (17 <= List.length members <= 24)%nat).
Proof.
  intro H. unfold set_size. set (n := List.length members) in *. set (k := Nat.div (n + 7) 8).
  assert (K : (8 * k <= n + 7 < 8 * k + 8)%nat).
  { pose proof (Nat.div_mod (n + 7) 8 ltac:(lia)) as D. pose proof (Nat.mod_upper_bound (n + 7) 8 ltac:(lia)). fold k in D. lia. }
  clearbody k. change 256 with (2 ^ 8). rewrite <- Z.pow_mul_r by lia.
  destruct (Nat.leb_spec k 4); (split; [cbn; lia|]); (split; [apply Z.pow_le_mono_r; lia|lia]).
Qed.

(** Years of two digits. *)
Lemma short_year t y r : Forall digit t -> year_width (List.length t) = 2%nat -> (2 <= List.length t)%nat -> read_datetime t = Some (y :: r) ->
  y = let a := dec_val t / 10 ^ (len t - 2) in if a <? 70 then 2000 + a else 1900 + a.
Proof.
  intros Hd Hw L H. unfold read_datetime in H. rewrite Hw in H. rewrite fields_more in H by lia.
  destruct (dec_cut 2 t Hd L) as [A1 _]. change (Z.of_nat 2) with 2 in A1. rewrite A1 in H.
  destruct (fields _ _) as [|mo [|d rest]]; try discriminate. destruct (_ && _) in H; [|discriminate]. injection H as <- _. reflexivity.
Qed.
Lemma short_year_range t y r : Forall digit t -> year_width (List.length t) = 2%nat -> (2 <= List.length t)%nat -> read_datetime t = Some (y :: r) -> 1970 <= y <= 2069.
Proof.
  intros Hd Hw L H. rewrite (short_year t y r Hd Hw L H). cbv zeta.
  destruct (dec_cut 2 t Hd L) as [A1 _]. change (Z.of_nat 2) with 2 in A1. rewrite <- A1.
  assert (D : Forall digit (firstn 2 t)) by (rewrite <- (firstn_skipn 2 t) in Hd; apply Forall_app in Hd; tauto).
  pose proof (dec_val_bound _ D) as B. assert (E : len (firstn 2 t) = 2) by (unfold len; rewrite firstn_length; lia). rewrite E in B. change (10 ^ 2) with 100 in B.
  destruct (Z.ltb_spec (dec_val (firstn 2 t)) 70); lia.
Qed.
Lemma late_years : forallb (fun k => 700000000 + 300 * 86400 <=? day_number (2010 + Z.of_nat k) 1 1 * 86400) (seq 0 60) = true.
Proof. vm_compute. reflexivity. Qed.
Lemma early_years : forallb (fun k => (day_number (1971 + Z.of_nat k) 1 1 + 300) * 86400 <=? (70 + Z.of_nat k) * 10000000) (seq 0 30) = true.
Proof. vm_compute. reflexivity. Qed.
Lemma nine_digits t n y r : 10 ^ 8 <= n < 10 ^ 9 -> dec_text 1 n t -> read_datetime t = Some (y :: r) ->
  n + 300 * 86400 <= day_number y 1 1 * 86400 \/ (day_number (y + 1) 1 1 + 300) * 86400 <= n.
Proof.
  intros Hn Ht H. pose proof (dec_digits 8 n t Ht Hn) as L. destruct Ht as [Hd [Hv _]].
  rewrite (short_year t y r Hd ltac:(rewrite L; reflexivity) ltac:(lia) H), Hv. unfold len. rewrite L. cbv zeta. change (Z.of_nat 9 - 2) with 7. change (10 ^ 7) with 10000000.
  change (10 ^ 8) with 100000000 in Hn. change (10 ^ 9) with 1000000000 in Hn.
  pose proof (Z.div_mod n 10000000 ltac:(lia)) as E. pose proof (Z.mod_pos_bound n 10000000 ltac:(lia)) as B. set (a := n / 10000000) in *.
  destruct (Z.ltb_spec a 70) as [C|C].
  - left. pose proof late_years as F. rewrite forallb_forall in F. specialize (F (Z.to_nat (a - 10)) ltac:(apply in_seq; lia)). apply Z.leb_le in F.
    rewrite Z2Nat.id in F by lia. replace (2010 + (a - 10)) with (2000 + a) in F by lia. lia.
  - right. pose proof early_years as F. rewrite forallb_forall in F. specialize (F (Z.to_nat (a - 70)) ltac:(apply in_seq; lia)). apply Z.leb_le in F.
    rewrite Z2Nat.id in F by lia. replace (1971 + (a - 70)) with (1900 + a + 1) in F by lia. replace (70 + (a - 70)) with a in F by lia. lia.
Qed.
