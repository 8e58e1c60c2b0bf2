(** Proofs about column values (utils.go: ParseData and its helpers). *)
From Coq Require Import ZifyBool.
From Verif Require Import GoBase Utils SpecInno SpecText PBase PWire.
Local Open Scope list_scope.
Ltac Zify.zify_post_hook ::= Z.div_mod_to_equations.

(** * Decimal text *)
Lemma dec_val_snoc t c : dec_val (t ++ [c]) = dec_val t * 10 + (c - 48).
Proof. unfold dec_val. now rewrite fold_left_app. Qed.
Lemma dec_val_app a b : dec_val (a ++ b) = dec_val a * 10 ^ len b + dec_val b.
Proof.
  revert a. induction b as [|c b IH] using rev_ind; intro a.
  - rewrite app_nil_r, len_nil. change (10 ^ 0) with 1. change (dec_val []) with 0. lia.
  - rewrite app_assoc, !dec_val_snoc, IH, len_app. change (len [c]) with 1.
    rewrite Z.pow_add_r by (pose proof (len_nonneg b); lia). change (10 ^ 1) with 10. lia.
Qed.

(* the digits of n in front of acc *)
Fixpoint digs (fuel : nat) (n : Z) : bytes :=
  match fuel with
  | O => []
  | S f => if n <? 10 then [48 + n] else digs f (n / 10) ++ [48 + n mod 10]
  end.
Lemma dec_aux_digs f : forall n acc, dec_aux f n acc = digs f n ++ acc.
Proof.
  induction f as [|f IH]; intros n acc; cbn [dec_aux digs]; [reflexivity|].
  destruct (n <? 10); [reflexivity|]. rewrite IH, <- app_assoc. reflexivity.
Qed.
Lemma digs_spec f : forall n, 0 <= n < 10 ^ Z.of_nat f -> (0 < f)%nat ->
  Forall digit (digs f n) /\ dec_val (digs f n) = n /\ (1 <= List.length (digs f n))%nat
  /\ (List.length (digs f n) = 1%nat \/ hd 48 (digs f n) <> 48)
  /\ (n <> 0 -> hd 48 (digs f n) <> 48).
Proof.
  induction f as [|f IH]; intros n Hn Hf; [lia|]. cbn [digs].
  destruct (Z.ltb_spec n 10) as [Hs|Hb].
  - split; [apply Forall_cons; [unfold digit; lia|constructor]|]. unfold dec_val. cbn [fold_left List.length hd]. split; [lia|]. split; [lia|].
    split; [now left|]. lia.
  - assert (Hf0 : (0 < f)%nat). { destruct f; [cbn in Hn; lia|lia]. }
    rewrite Nat2Z.inj_succ, Z.pow_succ_r in Hn by lia.
    destruct (IH (n / 10)) as [H1 [H2 [H3 [H4 H5]]]]; [lia|exact Hf0|].
    split; [apply Forall_app; split; [exact H1|constructor; [unfold digit; lia|constructor]]|].
    split; [rewrite dec_val_snoc, H2; lia|]. split; [rewrite app_length; cbn; lia|].
    assert (Hh : hd 48 (digs f (n / 10) ++ [48 + n mod 10]) <> 48).
    { destruct (digs f (n / 10)) as [|c t] eqn:E; [cbn in H3; lia|]. cbn. cbn in H5. apply H5. lia. }
    split; [right; exact Hh|intros _; exact Hh].
Qed.
Lemma log2_fuel n : 0 <= n -> n < 10 ^ Z.of_nat (S (Z.to_nat (Z.log2 n))).
Proof.
  intro Hn. rewrite Nat2Z.inj_succ, Z2Nat.id by apply Z.log2_nonneg.
  apply Z.lt_le_trans with (2 ^ Z.succ (Z.log2 n)).
  - destruct (Z.eq_dec n 0) as [->|H0]; [reflexivity|]. apply Z.log2_spec. lia.
  - apply Z.pow_le_mono_l. pose proof (Z.log2_nonneg n). lia.
Qed.
Lemma dec_digs n : dec n = digs (S (Z.to_nat (Z.log2 n))) n.
Proof. unfold dec. now rewrite dec_aux_digs, app_nil_r. Qed.
Lemma dec_spec n : 0 <= n -> dec_text 1 n (dec n).
Proof.
  intro Hn. rewrite dec_digs. pose proof (log2_fuel n Hn) as Hf.
  destruct (digs_spec (S (Z.to_nat (Z.log2 n))) n) as [H1 [H2 [H3 [H4 H5]]]]; [lia|lia|].
  unfold dec_text. repeat split; auto.
Qed.
Lemma dec_small n : 0 <= n < 10 -> dec n = [48 + n].
Proof.
  intro Hn. rewrite dec_digs. cbn [digs]. destruct (Z.ltb_spec n 10); [reflexivity|lia].
Qed.
Lemma dec_hd n : 0 < n -> hd 48 (dec n) <> 48.
Proof.
  intro Hn. rewrite dec_digs. pose proof (log2_fuel n).
  destruct (digs_spec (S (Z.to_nat (Z.log2 n))) n) as [H1 [H2 [H3 [H4 H5]]]]; [lia|lia|].
  apply H5. lia.
Qed.
Lemma dec_long n : 10 <= n -> (2 <= List.length (dec n))%nat.
Proof.
  intro Hn. pose proof (dec_spec n ltac:(lia)) as [H1 [H2 [H3 _]]].
  destruct (dec n) as [|a [|b t]]; cbn in *; try lia.
  inversion H1 as [|? ? Ha]; subst. unfold digit in Ha. lia.
Qed.
Lemma fmt_d_spec n : int_text n (fmt_d n).
Proof.
  unfold fmt_d, int_text. destruct (Z.ltb_spec n 0).
  - right. split; [lia|]. exists (dec (- n)). split; [reflexivity|]. apply dec_spec. lia.
  - left. split; [lia|]. apply dec_spec. lia.
Qed.
Lemma fmt_02d_spec n : 0 <= n -> dec_text 2 n (fmt_02d n).
Proof.
  intro Hn. unfold fmt_02d. destruct (Z.ltb_spec n 10).
  - rewrite dec_small by lia. unfold dec_text. repeat split.
    + constructor; [unfold digit; lia|]. constructor; [unfold digit; lia|constructor].
    + unfold dec_val. cbn [fold_left]. lia.
    + cbn. lia.
    + cbn. lia.
    + left. reflexivity.
  - pose proof (dec_spec n ltac:(lia)) as [H1 [H2 [H3 [H4 H5]]]]. pose proof (dec_long n ltac:(lia)).
    pose proof (dec_hd n ltac:(lia)).
    unfold dec_text. repeat split; auto.
Qed.
Lemma dec_val_zeros k t : dec_val (repeat 48 k ++ t) = dec_val t.
Proof.
  rewrite dec_val_app. replace (dec_val (repeat 48 k)) with 0; [lia|].
  induction k as [|k IH]; [reflexivity|]. change (repeat 48 (S k)) with (48 :: repeat 48 k). rewrite repeat_cons, dec_val_snoc, <- IH. reflexivity.
Qed.
Lemma fmt_year4_spec y : 0 <= y -> dec_text 4 y (fmt_year4 y).
Proof.
  intro Hy. unfold fmt_year4. pose proof (dec_spec y Hy) as [H1 [H2 [H3 [H4 H5]]]].
  generalize dependent (dec y). intros t H1 H2 H3 H4 H5. unfold dec_text. rewrite app_length, repeat_length. repeat split.
  - apply Forall_app. split; [|exact H1]. apply Forall_forall. intros c Hc. apply repeat_spec in Hc.
    unfold digit. lia.
  - now rewrite dec_val_zeros.
  - lia.
  - lia.
  - destruct (Nat.le_gt_cases (List.length t) 4); [left; lia|].
    replace (4 - List.length t)%nat with 0%nat by lia. cbn [repeat app].
    destruct H5 as [H5|H5]; [lia|right; exact H5].
Qed.

(* decimal text is unique *)
Lemma dec_val_bound t : Forall digit t -> 0 <= dec_val t < 10 ^ len t.
Proof.
  induction t as [|c t IH] using rev_ind; intro H; [cbn; lia|].
  apply Forall_app in H. destruct H as [H1 H2]. inversion H2 as [|? ? Hc]; subst. unfold digit in Hc.
  rewrite dec_val_snoc, len_app. change (len [c]) with 1.
  rewrite Z.pow_add_r by (pose proof (len_nonneg t); lia). specialize (IH H1). change (10 ^ 1) with 10. lia.
Qed.
Lemma dec_val_inj a : forall b, Forall digit a -> Forall digit b -> len a = len b ->
  dec_val a = dec_val b -> a = b.
Proof.
  induction a as [|c a IH] using rev_ind; intros b Ha Hb Hl Hv.
  - symmetry in Hl. apply len_zero in Hl. now subst.
  - destruct b as [|d b _] using rev_ind; [rewrite len_app in Hl; change (len [c]) with 1 in Hl;
      pose proof (len_nonneg a); change (len (@nil Z)) with 0 in Hl; lia|].
    rewrite !len_app in Hl. change (len [c]) with 1 in Hl. change (len [d]) with 1 in Hl.
    rewrite !dec_val_snoc in Hv. apply Forall_app in Ha, Hb. destruct Ha as [Ha Hc], Hb as [Hb Hd].
    inversion Hc as [|? ? Hc']; subst. inversion Hd as [|? ? Hd']; subst. unfold digit in *.
    assert (c = d) by lia. subst d. f_equal. apply IH; auto; lia.
Qed.
Lemma dec_val_lead c t : Forall digit (c :: t) -> c <> 48 -> 10 ^ len t <= dec_val (c :: t).
Proof.
  intros H Hc. inversion H as [|? ? H1 H2]; subst. change (c :: t) with ([c] ++ t). rewrite dec_val_app.
  pose proof (dec_val_bound t H2). change (dec_val [c]) with (0 * 10 + (c - 48)). unfold digit in H1.
  assert (0 < 10 ^ len t) by (apply Z.pow_pos_nonneg; [lia|apply len_nonneg]). nia.
Qed.
Lemma dec_text_unique w n a b : dec_text w n a -> dec_text w n b -> a = b.
Proof.
  assert (Hle : forall a b, dec_text w n a -> dec_text w n b -> (List.length a <= List.length b)%nat).
  { intros x y [X1 [X2 [X3 [X4 X5]]]] [Y1 [Y2 [Y3 [Y4 Y5]]]].
    destruct X5 as [X5|X5]; [lia|]. destruct (Nat.le_gt_cases (List.length x) (List.length y)); [assumption|].
    exfalso. destruct x as [|c x]; [cbn in X3; lia|]. cbn in X5.
    pose proof (dec_val_lead c x X1 X5). pose proof (dec_val_bound y Y1).
    assert (10 ^ len y <= 10 ^ len x). { apply Z.pow_le_mono_r; [lia|]. cbn [List.length] in *. unfold len. lia. }
    lia. }
  intros Ha Hb. pose proof (Hle a b Ha Hb). pose proof (Hle b a Hb Ha).
  destruct Ha as [A1 [A2 _]], Hb as [B1 [B2 _]]. apply dec_val_inj; auto; [unfold len; lia|congruence].
Qed.

(** * Integer columns *)
Lemma flip_bit v k : 0 <= k -> k < 64 -> 0 <= v < 2 ^ (k + 1) -> v < 2 ^ 64 ->
  Z.lor (Z.land v (2 ^ k - 1)) (Z.land (not64 v) (2 ^ k)) = (v + 2 ^ k) mod 2 ^ (k + 1).
Proof.
  intros Hk Hk' Hv Hv'. rewrite land_ones, land_pow2 by lia.
  assert (E : not64 v = Z.lnot v mod 2 ^ 64).
  { unfold not64, Z.lnot. symmetry. rewrite <- (Z.mod_small (2 ^ 64 - 1 - v) (2 ^ 64)) by lia.
    replace (2 ^ 64 - 1 - v) with (Z.pred (- v) + 1 * 2 ^ 64) by lia. now rewrite Z.mod_add by lia. }
  rewrite E, Z.mod_pow2_bits_low, Z.lnot_spec, (testbit_high v k) by lia.
  assert (Hp : 0 < 2 ^ k) by (apply Z.pow_pos_nonneg; lia).
  rewrite Z.pow_add_r in * by lia. change (2 ^ 1) with 2 in *.
  destruct (Z.leb_spec (2 ^ k) v); cbn [negb].
  - rewrite Z.lor_0_r. apply Z.mod_unique with 1; [|].
    { left. split; [apply Z.mod_pos_bound; lia|]. pose proof (Z.mod_pos_bound v (2 ^ k)). lia. }
    assert (v mod 2 ^ k = v - 2 ^ k); [|lia]. symmetry. apply Z.mod_unique with 1; [lia|lia].
  - rewrite (Z.mod_small v) by lia. rewrite Z.lor_comm.
    replace (2 ^ k) with (1 * 2 ^ k) at 1 by lia. rewrite lor_mul by lia. rewrite Z.mod_small by lia. lia.
Qed.

Lemma sign_fix R h v : R = 2 * h -> 0 < h -> - h <= v < h ->
  (if ((v + h + h) mod R) mod R >? h - 1 then ((v + h + h) mod R) mod R - R else ((v + h + h) mod R) mod R) = v.
Proof.
  intros -> Hh Hv. rewrite Z.mod_mod by lia. replace (v + h + h) with (v + 1 * (2 * h)) by lia. rewrite Z.mod_add by lia.
  destruct (Z.ltb_spec v 0) as [Hn|Hn].
  - replace (v mod (2 * h)) with (v + 2 * h) by (apply Z.mod_unique with (-1); lia).
    destruct (Z.gtb_spec (v + 2 * h) (h - 1)); lia.
  - rewrite (Z.mod_small v) by lia. destruct (Z.gtb_spec v (h - 1)); lia.
Qed.

Definition int_of (v : Z) (g : gval) : Prop := g = VInt v \/ g = VUint v.

Lemma slice_to_be k n rest : slice_to (be k n ++ rest) (Z.of_nat k) = Ok (be k n).
Proof. apply slice_to_app. symmetry. apply len_be. Qed.

Lemma get_int k v : In k [1; 2; 3; 4; 8]%nat ->
  - 2 ^ (8 * Z.of_nat k - 1) <= v < 2 ^ (8 * Z.of_nat k - 1) ->
  exists g, GetIntValue (Z.of_nat k) (store_int k v) = Ok g /\ int_of v g.
Proof.
  intros Hk Hv. unfold store_int.
  destruct Hk as [<-|[<-|[<-|[<-|[<-|[]]]]]]; unfold GetIntValue; cbn [Z.of_nat Pos.of_succ_nat Pos.succ Z.eqb Pos.eqb].
  - change (8 * Z.of_nat 1 - 1) with 7 in *. change (8 * 1 - 1) with 7 in *. rewrite <- (app_nil_r (be 1 _)), mrf1_be by lia.
    cbn [bind]. set (w := v + 2 ^ 7) in *. change 127 with (2 ^ 7 - 1). change 128 with (2 ^ 7).
    rewrite flip_bit by lia. rewrite i64_id by (change (7 + 1) with 8; lia).
    eexists. split; [reflexivity|]. left. f_equal. unfold w, TinyIntRange. change (7 + 1) with 8.
    exact (sign_fix (2 ^ 8) (2 ^ 7) v eq_refl eq_refl Hv).
  - change (8 * Z.of_nat 2 - 1) with 15 in *. change (8 * 2 - 1) with 15 in *. rewrite <- (app_nil_r (be 2 _)), mrf2_be by lia.
    cbn [bind]. set (w := v + 2 ^ 15) in *. change 32767 with (2 ^ 15 - 1). change 32768 with (2 ^ 15).
    rewrite flip_bit by lia. rewrite i64_id by (change (15 + 1) with 16; lia).
    eexists. split; [reflexivity|]. left. f_equal. unfold w, SmallIntRange. change (15 + 1) with 16.
    exact (sign_fix (2 ^ 16) (2 ^ 15) v eq_refl eq_refl Hv).
  - change (8 * Z.of_nat 3 - 1) with 23 in *. change (8 * 3 - 1) with 23 in *. rewrite <- (app_nil_r (be 3 _)), mrf3_be by lia.
    cbn [bind]. rewrite Z.shiftr_div_pow2 by lia.
    destruct (Z.eqb_spec ((v + 2 ^ 23) / 2 ^ 23) 1) as [E|E].
    + eexists. split; [reflexivity|]. right. f_equal. change 8388607 with (2 ^ 23 - 1). rewrite land_ones by lia. lia.
    + eexists. split; [reflexivity|]. left. f_equal. rewrite i64_id by lia.
      assert (Hn : v < 0) by lia. rewrite <- Z.add_nocarry_lxor; [lia|].
      apply Z.bits_inj'. intros i Hi. rewrite Z.land_spec, Z.bits_0.
      change (- 2 ^ 23) with (Z.lnot (2 ^ 23 - 1)). rewrite Z.lnot_spec by lia.
      destruct (Z.ltb_spec i 23).
      * change (2 ^ 23 - 1) with (Z.ones 23). rewrite Z.ones_spec_low by lia. apply andb_false_r.
      * rewrite Z.bits_above_log2; [reflexivity|lia|]. destruct (Z.eq_dec (v + 2 ^ 23) 0) as [->|]; [cbn; lia|].
        apply Z.log2_lt_pow2; [lia|]. apply Z.lt_le_trans with (2 ^ 23); [lia|]. apply Z.pow_le_mono_r; lia.
  - change (8 * Z.of_nat 4 - 1) with 31 in *. change (8 * 4 - 1) with 31 in *. rewrite <- (app_nil_r (be 4 _)), mrf4_be by lia.
    cbn [bind]. set (w := v + 2 ^ 31) in *. change 2147483647 with (2 ^ 31 - 1). change 2147483648 with (2 ^ 31).
    rewrite flip_bit by lia. rewrite i64_id by (change (31 + 1) with 32; lia).
    eexists. split; [reflexivity|]. left. f_equal. unfold w, IntRange. change (31 + 1) with 32.
    exact (sign_fix (2 ^ 32) (2 ^ 31) v eq_refl eq_refl Hv).
  - change (8 * Z.of_nat 8 - 1) with 63 in *. change (8 * 8 - 1) with 63 in *. rewrite <- (app_nil_r (be 8 _)), mrf8_be by lia.
    cbn [bind]. set (w := v + 2 ^ 63) in *. change 9223372036854775807 with (2 ^ 63 - 1). change 9223372036854775808 with (2 ^ 63).
    rewrite flip_bit by lia. eexists. split; [reflexivity|]. left. f_equal. unfold w, i64. change (63 + 1) with 64.
    destruct (Z.ltb_spec (((v + 2 ^ 63 + 2 ^ 63) mod 2 ^ 64) mod 2 ^ 64) (2 ^ 63)); lia.
Qed.

Lemma int_column rt mysql k v rest b : In k [1; 2; 3; 4; 8]%nat ->
  mysql <> 10 -> mysql <> 13 ->
  - 2 ^ (8 * Z.of_nat k - 1) <= v < 2 ^ (8 * Z.of_nat k - 1) ->
  exists g, ParseData rt DATA_INT mysql (store_int k v ++ rest) (Z.of_nat k) (Z.of_nat k) false b
            = ([], Ok (g, b)) /\ int_of v g.
Proof.
  intros Hk H1 H2 Hv. destruct (get_int k v Hk Hv) as [g [Hg Hi]]. exists g. split; [|exact Hi].
  unfold ParseData. cbn [Z.eqb Pos.eqb DATA_INT DATA_VARCHAR DATA_CHAR DATA_FIXBINARY DATA_BINARY].
  unfold MYSQL_TYPE_DATE, MYSQL_TYPE_YEAR.
  destruct (Z.eqb_spec mysql 10); [contradiction|]. destruct (Z.eqb_spec mysql 13); [contradiction|].
  unfold store_int in *. rewrite slice_to_be. cbn [bind]. rewrite Hg. reflexivity.
Qed.

Lemma get_uint k v : In k [1; 2; 4; 8]%nat -> 0 <= v < 256 ^ Z.of_nat k ->
  GetUintValue (Z.of_nat k) (store_uint k v) = Ok v.
Proof.
  intros Hk Hv. unfold store_uint.
  destruct Hk as [<-|[<-|[<-|[<-|[]]]]]; unfold GetUintValue; cbn [Z.of_nat Pos.of_succ_nat Pos.succ Z.eqb Pos.eqb].
  - rewrite <- (app_nil_r (be 1 _)). now apply mrf1_be.
  - rewrite <- (app_nil_r (be 2 _)). now apply mrf2_be.
  - rewrite <- (app_nil_r (be 4 _)). now apply mrf4_be.
  - rewrite <- (app_nil_r (be 8 _)). now apply mrf8_be.
Qed.
Lemma get_uint3 v : 0 <= v < 256 ^ 3 -> GetUintValue 3 (store_uint 3 v) = Ok (v mod 2 ^ 22).
Proof.
  intro Hv. unfold GetUintValue, store_uint. cbn [Z.eqb Pos.eqb]. rewrite <- (app_nil_r (be 3 v)), mrf3_be by exact Hv.
  cbn [bind]. change 4194303 with (2 ^ 22 - 1). now rewrite land_ones by lia.
Qed.
Lemma get_uint_short k v : In k [5; 6; 7]%nat -> GetUintValue (Z.of_nat k) (store_uint k v) = Panic.
Proof.
  intro Hk. unfold store_uint.
  assert (E : MatchReadFrom8 (be k v) = Panic).
  { apply mrf8_short. rewrite be_length. destruct Hk as [<-|[<-|[<-|[]]]]; lia. }
  unfold GetUintValue.
  destruct Hk as [<-|[<-|[<-|[]]]]; cbn [Z.of_nat Pos.of_succ_nat Pos.succ Z.eqb Pos.eqb]; now rewrite E.
Qed.

Lemma uint_column rt mysql k v rest b : mysql <> 10 -> mysql <> 13 ->
  ParseData rt DATA_INT mysql (store_uint k v ++ rest) (Z.of_nat k) (Z.of_nat k) true b
   = ([], (x <- GetUintValue (Z.of_nat k) (store_uint k v) ;; Ok (VUint x, b))).
Proof.
  intros H1 H2. unfold ParseData. cbn [Z.eqb Pos.eqb DATA_INT DATA_VARCHAR DATA_CHAR DATA_FIXBINARY DATA_BINARY].
  unfold MYSQL_TYPE_DATE, MYSQL_TYPE_YEAR.
  destruct (Z.eqb_spec mysql 10); [contradiction|]. destruct (Z.eqb_spec mysql 13); [contradiction|].
  unfold store_uint. rewrite slice_to_be. cbn [bind]. now destruct (GetUintValue _ _).
Qed.
Lemma bit_column rt k v rest u b :
  ParseData rt DATA_FIXBINARY MYSQL_TYPE_BIT (store_uint k v ++ rest) (Z.of_nat k) (Z.of_nat k) u b
   = ([], (x <- GetUintValue (Z.of_nat k) (store_uint k v) ;; Ok (VUint x, b))).
Proof.
  unfold ParseData. cbn [Z.eqb Pos.eqb DATA_VARCHAR DATA_CHAR DATA_FIXBINARY MYSQL_TYPE_BIT MYSQL_TYPE_TIME MYSQL_TYPE_TIMESTAMP MYSQL_TYPE_DATETIME].
  unfold store_uint. rewrite slice_to_be. cbn [bind]. now destruct (GetUintValue _ _).
Qed.

(** * Dates and times *)
Lemma date_parse y m d rest : 0 <= y < 16384 -> 0 <= m < 16 -> 0 <= d < 32 ->
  ParseDate (store_date y m d ++ rest)
  = Ok (fmt_02d y ++ bs "-" ++ fmt_02d m ++ bs "-" ++ fmt_02d d).
Proof.
  intros Hy Hm Hd. unfold ParseDate, store_date, store_int. change (8 * Z.of_nat 3 - 1) with 23.
  rewrite mrf3_be by (change (256 ^ 3) with 16777216; change (2 ^ 23) with 8388608; lia). cbn [bind].
  rewrite ldiff_pow2, testbit_high by (change (2 ^ (23 + 1)) with 16777216; change (2 ^ 23) with 8388608; lia).
  destruct (Z.leb_spec (2 ^ 23) (y * 512 + m * 32 + d + 2 ^ 23)); [|lia].
  do 2 f_equal; [|f_equal; f_equal; [|f_equal]]; f_equal; lia.
Qed.
Lemma time_parse neg h m s rest : 0 <= h <= 838 -> 0 <= m < 60 -> 0 <= s < 64 ->
  ParseTime (store_time neg h m s ++ rest)
  = Ok ((if neg && negb ((h =? 0) && (m =? 0) && (s =? 0)) then bs "-" else [])
        ++ fmt_02d h ++ bs ":" ++ fmt_02d m ++ bs ":" ++ fmt_02d s).
Proof.
  intros Hh Hm Hs. unfold ParseTime, store_time. cbv zeta.
  rewrite mrf3_be by (change (256 ^ 3) with 16777216; destruct neg; lia). cbn [bind].
  set (p := h * 4096 + m * 64 + s).
  assert (Hp : 0 <= p < 838 * 4096 + 4096) by (unfold p; lia).
  rewrite i64_id by (destruct neg; lia).
  assert (F : forall q, q = p -> Z.shiftr (Z.land q 4190208) 12 = h /\ Z.shiftr (Z.land q 4032) 6 = m /\ Z.land q 63 = s).
  { intros q ->. replace 4190208 with ((2 ^ 10 - 1) * 2 ^ 12) by reflexivity.
    replace 4032 with ((2 ^ 6 - 1) * 2 ^ 6) by reflexivity. replace 63 with (2 ^ 6 - 1) by reflexivity.
    rewrite !Z.shiftr_land. rewrite <- !Z.shiftl_mul_pow2 by lia. rewrite !Z.shiftr_shiftl_l by lia.
    cbn [Z.sub Z.opp Z.add Z.pos_sub Pos.pred_double]. rewrite !Z.shiftl_0_r.
    change (12 - 12) with 0. rewrite !land_ones, !Z.shiftr_div_pow2 by lia. unfold p. lia. }
  replace (h * 4096 + m * 64 + s) with p by reflexivity.
  destruct neg; cbn [andb].
  - destruct (Z.ltb_spec (8388608 + - p - 8388608) 0) as [Hn|Hn].
    + destruct (F (- (8388608 + - p - 8388608)) ltac:(lia)) as [-> [-> ->]].
      replace (negb ((h =? 0) && (m =? 0) && (s =? 0))) with true by (unfold p in Hn; lia). reflexivity.
    + destruct (F (8388608 + - p - 8388608) ltac:(lia)) as [-> [-> ->]].
      replace (negb ((h =? 0) && (m =? 0) && (s =? 0))) with false by (unfold p in Hn; lia). reflexivity.
  - destruct (Z.ltb_spec (8388608 + p - 8388608) 0) as [Hn|Hn]; [lia|].
    destruct (F (8388608 + p - 8388608) ltac:(lia)) as [-> [-> ->]]. reflexivity.
Qed.

Definition dt_number y mo d h mi s := 2 ^ 39 + (y * 13 + mo) * 2 ^ 22 + d * 2 ^ 17 + h * 2 ^ 12 + mi * 2 ^ 6 + s.

Lemma dt_fields n r y mo d h mi s :
  0 <= y -> 0 <= mo < 13 -> 0 <= d < 32 -> 0 <= h < 32 -> 0 <= mi < 64 -> 0 <= s < 64 ->
  y * 13 + mo < 2 ^ 17 -> 0 <= r < 2 ^ 24 -> n = dt_number y mo d h mi s * 2 ^ 24 + r ->
  Z.shiftr (Z.land n 9223301668110598144) 46 = y * 13 + mo /\
  Z.shiftr (Z.land n 68169720922112) 41 = d /\ Z.shiftr (Z.land n 2130303778816) 36 = h /\
  Z.shiftr (Z.land n 67645734912) 30 = mi /\ Z.shiftr (Z.land n 1056964608) 24 = s.
Proof.
  intros Hy Hmo Hd Hh Hmi Hs Hym Hr ->. unfold dt_number.
  change 9223301668110598144 with (Z.shiftl (Z.ones 17) 46). change 68169720922112 with (Z.shiftl (Z.ones 5) 41).
  change 2130303778816 with (Z.shiftl (Z.ones 5) 36). change 67645734912 with (Z.shiftl (Z.ones 6) 30).
  change 1056964608 with (Z.shiftl (Z.ones 6) 24).
  rewrite !land_field by lia. lia.
Qed.
Lemma not_old n sec min : 2 ^ 63 <= n < 2 ^ 64 ->
  sec = (n - 2 ^ 63) mod 100 -> min = ((n - 2 ^ 63) / 100) mod 100 -> min <= 59 ->
  1990 < n mod 10000 < 2100 -> False.
Proof. intros. change (2 ^ 63) with 9223372036854775808 in *. lia. Qed.

Lemma mrf8_datetime y mo d h mi s r3 rest :
  0 <= y -> 0 <= mo < 13 -> 0 <= d < 32 -> 0 <= h < 32 -> 0 <= mi < 64 -> 0 <= s < 64 ->
  y * 13 + mo < 2 ^ 17 -> all_bytes r3 -> len r3 = 3 ->
  MatchReadFrom8 (store_datetime y mo d h mi s ++ r3 ++ rest)
  = Ok (dt_number y mo d h mi s * 2 ^ 24 + be_val r3) /\ 0 <= be_val r3 < 2 ^ 24.
Proof.
  intros Hy Hmo Hd Hh Hmi Hs Hym Hb Hl.
  assert (Hr : 0 <= be_val r3 < 2 ^ 24). { pose proof (be_val_bound r3 Hb) as B. rewrite Hl in B. exact B. }
  split; [|exact Hr]. rewrite app_assoc, mrf8_app.
  - f_equal. rewrite be_val_app. unfold store_datetime. rewrite be_val_be_small by lia. rewrite Hl. reflexivity.
  - apply all_bytes_app. split; [apply be_bytes|exact Hb].
  - rewrite app_length. unfold store_datetime. rewrite be_length. unfold len in Hl. lia.
Qed.

Lemma datetime_parse y mo d h mi s r3 rest :
  1990 < y < 2100 -> 1 <= mo <= 12 -> 1 <= d <= 31 -> 0 <= h <= 23 -> 0 <= mi <= 59 -> 0 <= s <= 59 ->
  all_bytes r3 -> len r3 = 3 ->
  ParseDateTime (store_datetime y mo d h mi s ++ r3 ++ rest) = Ok (fmt_datetime y mo d h mi s).
Proof.
  intros Hy Hmo Hd Hh Hmi Hs Hb Hl.
  destruct (mrf8_datetime y mo d h mi s r3 rest) as [E Hr]; try lia; [exact Hb|].
  unfold ParseDateTime, GetTimeFormat. rewrite !E. cbn [bind].
  set (n := dt_number y mo d h mi s * 2 ^ 24 + be_val r3).
  assert (Hn : 2 ^ 63 <= n < 2 ^ 64) by (unfold n, dt_number; lia).
  destruct (dt_fields n (be_val r3) y mo d h mi s) as [F1 [F2 [F3 [F4 F5]]]]; try lia.
  rewrite F1, F2, F3, F4, F5.
  rewrite ldiff_pow2, testbit_high by (change (2 ^ (63 + 1)) with (2 ^ 64); lia).
  destruct (Z.leb_spec (2 ^ 63) n); [|lia].
  match goal with |- context [if ?c then Ok 1 else _] => replace c with false end.
  2:{ symmetry. apply not_true_iff_false. rewrite !andb_true_iff.
      intros [[[[[[[[[[[H1 H2] _] _] _] _] _] _] _] H3] _] _]. apply Zgt_is_gt_bool in H1. apply Z.ltb_lt in H2. apply Z.leb_le in H3.
      apply (not_old n _ _ Hn eq_refl eq_refl H3). lia. }
  assert (Hsh : Z.shiftr n 63 = 1) by (rewrite Z.shiftr_div_pow2 by lia; lia).
  rewrite Hsh. cbn [Z.eqb].
  assert (Ey : (y * 13 + mo) / 13 = y) by lia. rewrite Ey.
  assert (Em : y * 13 + mo - y * 13 = mo) by lia. rewrite Em.
  match goal with |- context [if ?c then Ok 2 else _] => replace c with true by lia end.
  reflexivity.
Qed.

Lemma be_val_inj a : forall b, all_bytes a -> all_bytes b -> List.length a = List.length b -> be_val a = be_val b -> a = b.
Proof.
  induction a as [|x a IH] using rev_ind; intros b Ha Hb Hl E.
  - destruct b; [reflexivity|discriminate Hl].
  - destruct b as [|y b _] using rev_ind; [rewrite app_length in Hl; cbn in Hl; lia|].
    rewrite !app_length in Hl. cbn in Hl. rewrite !be_val_snoc in E. apply all_bytes_app in Ha as [Ha Hx]. apply all_bytes_app in Hb as [Hb Hy].
    apply Forall_inv in Hx. apply Forall_inv in Hy. unfold is_byte in *. rewrite (IH b Ha Hb) by lia. f_equal. f_equal. lia.
Qed.
(* other years: the decimal digits of the number that is made with the bytes after the value *)
Lemma digits_split a : forall b c x y, Forall digit a -> Forall digit b -> ~ digit c -> a ++ c :: x = b ++ c :: y -> a = b /\ x = y.
Proof.
  induction a as [|d a IH]; intros [|e b] c x y Ha Hb Hc E; cbn [app] in E.
  - injection E as E. now split.
  - injection E as E1 E2. subst e. apply Forall_inv in Hb. contradiction.
  - injection E as E1 E2. subst d. apply Forall_inv in Ha. contradiction.
  - injection E as E1 E2. subst e. apply Forall_inv_tail in Ha. apply Forall_inv_tail in Hb. destruct (IH b c x y Ha Hb Hc E2) as [-> ->]. now split.
Qed.
Lemma fmt_02d_inj a b : 0 <= a -> 0 <= b -> fmt_02d a = fmt_02d b -> a = b.
Proof. intros Ha Hb E. destruct (fmt_02d_spec a Ha) as [_ [Va _]], (fmt_02d_spec b Hb) as [_ [Vb _]]. congruence. Qed.
Lemma fmt_datetime_inj y mo d h mi s y' mo' d' h' mi' s' :
  0 <= y -> 0 <= mo -> 0 <= d -> 0 <= h -> 0 <= mi -> 0 <= s -> 0 <= y' -> 0 <= mo' -> 0 <= d' -> 0 <= h' -> 0 <= mi' -> 0 <= s' ->
  fmt_datetime y mo d h mi s = fmt_datetime y' mo' d' h' mi' s' -> y = y' /\ mo = mo' /\ d = d' /\ h = h' /\ mi = mi' /\ s = s'.
Proof.
  intros H1 H2 H3 H4 H5 H6 H7 H8 H9 H10 H11 H12 E. unfold fmt_datetime in E.
  change (bs "-") with [45] in E. change (bs " ") with [32] in E. change (bs ":") with [58] in E. cbn [app] in E.
  assert (D : forall n, 0 <= n -> Forall digit (fmt_02d n)) by (intros n Hn; apply (fmt_02d_spec n Hn)).
  assert (N1 : ~ digit 45) by (unfold digit; lia). assert (N2 : ~ digit 32) by (unfold digit; lia). assert (N3 : ~ digit 58) by (unfold digit; lia).
  apply digits_split in E as [E1 E]; [|auto|auto|exact N1]. apply digits_split in E as [E2 E]; [|auto|auto|exact N1]. apply digits_split in E as [E3 E]; [|auto|auto|exact N2].
  apply digits_split in E as [E4 E]; [|auto|auto|exact N3]. apply digits_split in E as [E5 E]; [|auto|auto|exact N3].
  repeat split; apply fmt_02d_inj; assumption.
Qed.
Definition old_text (v : Z) : bytes :=
  fmt_datetime (v / 100 / 100 / 100 / 100 / 100 mod 10000) (v / 100 / 100 / 100 / 100 mod 100) (v / 100 / 100 / 100 mod 100) (v / 100 / 100 mod 100) (v / 100 mod 100) (v mod 100).
Lemma old_text_inj v w : 0 <= v -> 0 <= w -> old_text v = old_text w -> v mod 100000000000000 = w mod 100000000000000.
Proof.
  intros Hv Hw E. apply fmt_datetime_inj in E; try (apply Z.mod_pos_bound; lia). lia.
Qed.
Lemma datetime_other y mo d h mi s r3 rest :
  0 <= y <= 9999 -> ~ 1990 < y < 2100 -> 1 <= mo <= 12 -> 1 <= d <= 31 -> 0 <= h <= 23 -> 0 <= mi <= 59 -> 0 <= s <= 59 ->
  all_bytes r3 -> len r3 = 3 ->
  ParseDateTime (store_datetime y mo d h mi s ++ r3 ++ rest) = Ok (old_text (dt_number y mo d h mi s * 2 ^ 24 + be_val r3 - 2 ^ 63))
  /\ 0 <= dt_number y mo d h mi s * 2 ^ 24 + be_val r3 - 2 ^ 63 /\ 0 <= be_val r3 < 2 ^ 24.
Proof.
  intros Hy Hny Hmo Hd Hh Hmi Hs Hb Hl.
  destruct (mrf8_datetime y mo d h mi s r3 rest) as [E Hr]; try lia; [exact Hb|].
  unfold ParseDateTime, GetTimeFormat. rewrite !E. cbn [bind].
  set (n := dt_number y mo d h mi s * 2 ^ 24 + be_val r3).
  assert (Hn : 2 ^ 63 <= n < 2 ^ 64) by (unfold n, dt_number; lia).
  destruct (dt_fields n (be_val r3) y mo d h mi s) as [F1 [F2 [F3 [F4 F5]]]]; try lia.
  rewrite F1, F2, F3, F4, F5.
  rewrite ldiff_pow2, testbit_high by (change (2 ^ (63 + 1)) with (2 ^ 64); lia).
  destruct (Z.leb_spec (2 ^ 63) n); [|lia].
  assert (Hsh : Z.shiftr n 63 = 1) by (rewrite Z.shiftr_div_pow2 by lia; lia).
  rewrite Hsh. cbn [Z.eqb].
  assert (Ey : (y * 13 + mo) / 13 = y) by lia. rewrite Ey.
  match goal with |- context [if ?c then Ok 2 else _] => replace c with false by lia end.
  split; [|split; lia].
  match goal with |- context [if ?c then Ok 1 else _] => destruct c end; reflexivity.
Qed.

(* old format *)
Lemma old_parse_fields v y mo d h mi s : v = old_datetime y mo d h mi s ->
  0 <= y < 10000 -> 0 <= mo < 100 -> 0 <= d < 100 -> 0 <= h < 100 -> 0 <= mi < 100 -> 0 <= s < 100 ->
  v mod 100 = s /\ v / 100 mod 100 = mi /\ v / 100 / 100 mod 100 = h /\ v / 100 / 100 / 100 mod 100 = d
  /\ v / 100 / 100 / 100 / 100 mod 100 = mo /\ v / 100 / 100 / 100 / 100 / 100 mod 10000 = y.
Proof. intros -> Hy Hmo Hd Hh Hmi Hs. unfold old_datetime. lia. Qed.

Lemma old_datetime_parse sign y mo d h mi s rest :
  0 <= y < 10000 -> 0 <= mo < 100 -> 0 <= d < 100 -> 0 <= h < 100 -> 0 <= mi < 100 -> 0 <= s < 100 ->
  ParseDateTime (be 8 ((if sign : bool then 2 ^ 63 else 0) + old_datetime y mo d h mi s) ++ rest)
  = Ok (fmt_datetime y mo d h mi s).
Proof.
  intros Hy Hmo Hd Hh Hmi Hs. remember (old_datetime y mo d h mi s) as v eqn:Ev.
  assert (Hv : 0 <= v < 10 ^ 14) by (rewrite Ev; unfold old_datetime; change (10 ^ 14) with 100000000000000; lia).
  change (10 ^ 14) with 100000000000000 in Hv.
  set (n := (if sign then 2 ^ 63 else 0) + v).
  assert (Hn : 0 <= n < 2 ^ 64) by (unfold n; destruct sign; lia).
  unfold ParseDateTime, GetTimeFormat. rewrite !mrf8_be by exact Hn. cbn [bind].
  assert (El : Z.ldiff n (2 ^ 63) = v).
  { rewrite ldiff_pow2, testbit_high by (change (2 ^ (63 + 1)) with (2 ^ 64); lia).
    unfold n. destruct sign; [destruct (Z.leb_spec (2 ^ 63) (2 ^ 63 + v))|destruct (Z.leb_spec (2 ^ 63) (0 + v))]; lia. }
  rewrite El. destruct (old_parse_fields v y mo d h mi s Ev Hy Hmo Hd Hh Hmi Hs) as [F1 [F2 [F3 [F4 [F5 F6]]]]].
  rewrite F1, F2, F3, F4, F5, F6.
  match goal with |- context [if ?c then Ok 1 else _] => destruct c end; cbn [bind Z.eqb Pos.eqb orb]; [reflexivity|].
  destruct (Z.shiftr n 63 =? 0) eqn:Es; cbn [bind Z.eqb Pos.eqb orb]; [reflexivity|].
  assert (Ey : Z.shiftr (Z.land n 9223301668110598144) 46 / 13 = 0).
  { change 9223301668110598144 with (Z.shiftl (Z.ones 17) 46). rewrite land_field by lia.
    unfold n. destruct sign; lia. }
  rewrite Ey. cbn [Z.gtb Z.compare andb bind Z.eqb orb]. reflexivity.
Qed.
