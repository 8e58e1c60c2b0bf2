(** Lemmas about the Go notions of GoBase.v and the encoders of SpecInno.v. *)
From Coq Require Import ZifyBool.
From Verif Require Import GoBase SpecInno.
Local Open Scope list_scope.

Ltac Zify.zify_post_hook ::= Z.div_mod_to_equations.

(** * Lengths *)
Lemma len_nil {A} : len (@nil A) = 0.
Proof. reflexivity. Qed.
Lemma len_cons {A} (x : A) l : len (x :: l) = 1 + len l.
Proof. unfold len. cbn [List.length]. lia. Qed.
Lemma len_app {A} (a b : list A) : len (a ++ b) = len a + len b.
Proof. unfold len. rewrite app_length. lia. Qed.
Lemma len_nonneg {A} (l : list A) : 0 <= len l.
Proof. unfold len. lia. Qed.
Lemma len_repeat {A} (x : A) n : len (repeat x n) = Z.of_nat n.
Proof. unfold len. now rewrite repeat_length. Qed.
Lemma len_map {A B} (f : A -> B) l : len (map f l) = len l.
Proof. unfold len. now rewrite map_length. Qed.
Lemma len_rev {A} (l : list A) : len (rev l) = len l.
Proof. unfold len. now rewrite rev_length. Qed.
Lemma len_skipn {A} n (l : list A) : Z.of_nat n <= len l -> len (skipn n l) = len l - Z.of_nat n.
Proof. unfold len. intro H. rewrite skipn_length. lia. Qed.
Lemma len_firstn {A} n (l : list A) : Z.of_nat n <= len l -> len (firstn n l) = Z.of_nat n.
Proof. unfold len. intro H. rewrite firstn_length. lia. Qed.
Lemma to_nat_len {A} (l : list A) : Z.to_nat (len l) = List.length l.
Proof. unfold len. lia. Qed.
Lemma len_zero {A} (l : list A) : len l = 0 -> l = [].
Proof. destruct l; [reflexivity|]. rewrite len_cons. pose proof (len_nonneg l). lia. Qed.

Ltac len_simpl :=
  repeat (rewrite ?len_app, ?len_cons, ?len_nil, ?len_repeat, ?len_map, ?len_rev in *).

(** * Lists *)
Lemma skipn_app_len {A} (a b : list A) : skipn (List.length a) (a ++ b) = b.
Proof. now rewrite skipn_app, skipn_all, Nat.sub_diag. Qed.
Lemma firstn_app_len {A} (a b : list A) : firstn (List.length a) (a ++ b) = a.
Proof. rewrite firstn_app, firstn_all, Nat.sub_diag. cbn [firstn]. now rewrite app_nil_r. Qed.
Lemma skipn_app_exact {A} n (a b : list A) : List.length a = n -> skipn n (a ++ b) = b.
Proof. intros <-. apply skipn_app_len. Qed.
Lemma firstn_app_exact {A} n (a b : list A) : List.length a = n -> firstn n (a ++ b) = a.
Proof. intros <-. apply firstn_app_len. Qed.
Lemma skipn_skipn {A} a b (l : list A) : skipn a (skipn b l) = skipn (b + a) l.
Proof.
  revert l; induction b as [|b IH]; intros l; [reflexivity|].
  destruct l; [now rewrite !skipn_nil|]. cbn [Nat.add skipn]. apply IH.
Qed.
Lemma nth_error_skipn {A} n k (l : list A) : nth_error (skipn n l) k = nth_error l (n + k).
Proof.
  revert l; induction n as [|n IH]; intros l; [reflexivity|].
  destruct l; cbn [skipn Nat.add nth_error]; [now destruct k|]. apply IH.
Qed.

(** * Wrap-around *)
Lemma u64_id x : 0 <= x < 2 ^ 64 -> u64 x = x.
Proof. intro H. unfold u64. apply Z.mod_small. exact H. Qed.
Lemma i64_id x : 0 <= x < 2 ^ 63 -> i64 x = x.
Proof.
  intro H. unfold i64. rewrite Z.mod_small by lia.
  destruct (x <? 2 ^ 63) eqn:E; lia.
Qed.

(** * Slices and indices *)
Lemma slice_from_ok {A} (d : list A) a :
  0 <= a <= len d -> slice_from d a = Ok (skipn (Z.to_nat a) d).
Proof.
  intro H. unfold slice_from.
  destruct (0 <=? a) eqn:E1; destruct (a <=? len d) eqn:E2; cbn [andb]; try lia. reflexivity.
Qed.
Lemma slice_from_panic {A} (d : list A) a : a < 0 \/ len d < a -> slice_from d a = Panic.
Proof.
  intro H. unfold slice_from.
  destruct (0 <=? a) eqn:E1; destruct (a <=? len d) eqn:E2; cbn [andb]; try lia; reflexivity.
Qed.
Lemma slice_from_app {A} (pre rest : list A) : slice_from (pre ++ rest) (len pre) = Ok rest.
Proof.
  rewrite slice_from_ok.
  - rewrite to_nat_len. now rewrite skipn_app_len.
  - rewrite len_app. pose proof (len_nonneg pre). pose proof (len_nonneg rest). lia.
Qed.
Lemma slice_from_app_eq {A} (pre rest : list A) p :
  p = len pre -> slice_from (pre ++ rest) p = Ok rest.
Proof. intros ->. apply slice_from_app. Qed.
Lemma slice_to_ok {A} (d : list A) b :
  0 <= b <= len d -> slice_to d b = Ok (firstn (Z.to_nat b) d).
Proof.
  intro H. unfold slice_to.
  destruct (0 <=? b) eqn:E1; destruct (b <=? len d) eqn:E2; cbn [andb]; try lia. reflexivity.
Qed.
Lemma slice_to_app {A} (a b : list A) n : n = len a -> slice_to (a ++ b) n = Ok a.
Proof.
  intros ->. rewrite slice_to_ok.
  - rewrite to_nat_len. now rewrite firstn_app_len.
  - rewrite len_app. pose proof (len_nonneg a). pose proof (len_nonneg b). lia.
Qed.
Lemma slice_to_panic {A} (d : list A) b : b < 0 \/ len d < b -> slice_to d b = Panic.
Proof.
  intro H. unfold slice_to.
  destruct (0 <=? b) eqn:E1; destruct (b <=? len d) eqn:E2; cbn [andb]; try lia; reflexivity.
Qed.
Lemma slice_ok {A} (d : list A) a b :
  0 <= a <= b -> b <= len d ->
  slice d a b = Ok (firstn (Z.to_nat (b - a)) (skipn (Z.to_nat a) d)).
Proof.
  intros H H'. unfold slice.
  destruct (0 <=? a) eqn:E1; destruct (a <=? b) eqn:E2; destruct (b <=? len d) eqn:E3;
    cbn [andb]; try lia. reflexivity.
Qed.
Lemma slice_app {A} (pre m post : list A) a b :
  a = len pre -> b = len pre + len m -> slice (pre ++ m ++ post) a b = Ok m.
Proof.
  intros -> ->. pose proof (len_nonneg pre). pose proof (len_nonneg m). pose proof (len_nonneg post).
  rewrite slice_ok; [|lia|rewrite !len_app; lia].
  rewrite to_nat_len, skipn_app_len.
  replace (len pre + len m - len pre) with (len m) by lia.
  now rewrite to_nat_len, firstn_app_len.
Qed.
Lemma index_some {A} (d : list A) i x :
  0 <= i -> nth_error d (Z.to_nat i) = Some x -> index d i = Ok x.
Proof.
  intros Hi H. unfold index.
  assert (Hl : (Z.to_nat i < List.length d)%nat) by (apply nth_error_Some; congruence).
  assert (i < len d) by (unfold len; lia).
  destruct (0 <=? i) eqn:E1; destruct (i <? len d) eqn:E2; cbn [andb]; try lia.
  now rewrite H.
Qed.
Lemma index_panic {A} (d : list A) i : i < 0 \/ len d <= i -> index d i = Panic.
Proof.
  intro H. unfold index.
  destruct (0 <=? i) eqn:E1; destruct (i <? len d) eqn:E2; cbn [andb]; try lia; reflexivity.
Qed.
Lemma index_ok_inv {A} (d : list A) i x : index d i = Ok x -> 0 <= i < len d /\ nth_error d (Z.to_nat i) = Some x.
Proof.
  unfold index. destruct (0 <=? i) eqn:E1; destruct (i <? len d) eqn:E2; cbn [andb]; try discriminate.
  destruct (nth_error d (Z.to_nat i)); [|discriminate]. intro E; injection E as ->. split; [lia|reflexivity].
Qed.
Lemma index_total {A} (d : list A) i : 0 <= i < len d -> exists x, index d i = Ok x.
Proof.
  intro H. destruct (nth_error d (Z.to_nat i)) eqn:E.
  - exists a. apply index_some; [lia|exact E].
  - apply nth_error_None in E. unfold len in H. lia.
Qed.
Lemma index_0 {A} (x : A) l : index (x :: l) 0 = Ok x.
Proof. apply index_some; [lia|reflexivity]. Qed.
Lemma index_all_bytes d i x : all_bytes d -> index d i = Ok x -> is_byte x.
Proof.
  intros H E. apply index_ok_inv in E as [_ E]. apply nth_error_In in E.
  unfold all_bytes in H. rewrite Forall_forall in H. now apply H.
Qed.
Lemma set_index_ok {A} (d : list A) i v :
  0 <= i < len d -> set_index d i v = Ok (firstn (Z.to_nat i) d ++ v :: skipn (S (Z.to_nat i)) d).
Proof.
  intro H. unfold set_index.
  destruct (0 <=? i) eqn:E1; destruct (i <? len d) eqn:E2; cbn [andb]; try lia. reflexivity.
Qed.
Lemma set_index_app {A} (pre : list A) x rest i v :
  i = len pre -> set_index (pre ++ x :: rest) i v = Ok (pre ++ v :: rest).
Proof.
  intros ->. rewrite set_index_ok.
  - rewrite to_nat_len, firstn_app_len.
    replace (S (List.length pre)) with (List.length (pre ++ [x])) by (rewrite app_length; cbn; lia).
    replace (pre ++ x :: rest) with ((pre ++ [x]) ++ rest) by (rewrite <- app_assoc; reflexivity).
    now rewrite skipn_app_len.
  - rewrite len_app, len_cons. pose proof (len_nonneg pre). pose proof (len_nonneg rest). lia.
Qed.

(** * Bits as arithmetic *)
Lemma land_shiftl_small a b k : 0 <= k -> 0 <= b < 2 ^ k -> Z.land (Z.shiftl a k) b = 0.
Proof.
  intros Hk Hb. apply Z.bits_inj'. intros n Hn.
  rewrite Z.land_spec, Z.bits_0, Z.shiftl_spec by lia.
  destruct (Z.ltb_spec n k).
  - rewrite Z.testbit_neg_r by lia. reflexivity.
  - replace (Z.testbit b n) with false; [apply andb_false_r|].
    symmetry. destruct (Z.eq_dec b 0) as [->|]; [apply Z.bits_0|].
    apply Z.bits_above_log2; [lia|]. apply Z.log2_lt_pow2; [lia|].
    apply Z.lt_le_trans with (2 ^ k); [lia|]. apply Z.pow_le_mono_r; lia.
Qed.
Lemma lor_shiftl a b k : 0 <= k -> 0 <= b < 2 ^ k -> Z.lor (Z.shiftl a k) b = a * 2 ^ k + b.
Proof.
  intros Hk Hb. pose proof (land_shiftl_small a b k Hk Hb) as H.
  rewrite <- Z.lxor_lor by exact H. rewrite <- Z.add_nocarry_lxor by exact H.
  now rewrite Z.shiftl_mul_pow2.
Qed.
Lemma lor_mul a b k : 0 <= k -> 0 <= b < 2 ^ k -> Z.lor (a * 2 ^ k) b = a * 2 ^ k + b.
Proof. intros Hk Hb. rewrite <- Z.shiftl_mul_pow2 by lia. rewrite lor_shiftl by lia. now rewrite Z.shiftl_mul_pow2. Qed.
Lemma land_ones a k : 0 <= k -> Z.land a (2 ^ k - 1) = a mod 2 ^ k.
Proof. intro H. replace (2 ^ k - 1) with (Z.ones k) by (rewrite Z.ones_equiv; lia). now apply Z.land_ones. Qed.
(** a single bit *)
Lemma land_pow2 a k : 0 <= k -> Z.land a (2 ^ k) = if Z.testbit a k then 2 ^ k else 0.
Proof.
  intro Hk. apply Z.bits_inj'. intros n Hn. rewrite Z.land_spec.
  destruct (Z.eq_dec n k) as [->|Hne].
  - rewrite Z.pow2_bits_true by lia. destruct (Z.testbit a k).
    + now rewrite Z.pow2_bits_true by lia.
    + now rewrite Z.bits_0.
  - rewrite Z.pow2_bits_false by lia. rewrite andb_false_r.
    destruct (Z.testbit a k); [now rewrite Z.pow2_bits_false by lia|now rewrite Z.bits_0].
Qed.
Lemma testbit_div a k : 0 <= k -> Z.testbit a k = Z.odd (a / 2 ^ k).
Proof.
  intro Hk. rewrite <- Z.shiftr_div_pow2 by lia. rewrite <- Z.bit0_odd, Z.shiftr_spec by lia.
  now rewrite Z.add_0_l.
Qed.
(** a field of w bits at bit k *)
Lemma land_field a k w : 0 <= k -> 0 <= w ->
  Z.shiftr (Z.land a (Z.shiftl (Z.ones w) k)) k = (a / 2 ^ k) mod 2 ^ w.
Proof.
  intros Hk Hw. rewrite Z.shiftr_land, Z.shiftr_shiftl_l, Z.sub_diag by lia.
  rewrite Z.shiftl_0_r, Z.land_ones by lia. now rewrite Z.shiftr_div_pow2 by lia.
Qed.
(** clearing a bit *)
Lemma ldiff_pow2 a k : 0 <= k -> Z.ldiff a (2 ^ k) = if Z.testbit a k then a - 2 ^ k else a.
Proof.
  intro Hk. destruct (Z.testbit a k) eqn:E.
  - assert (Hl : Z.land (Z.ldiff a (2 ^ k)) (2 ^ k) = 0).
    { apply Z.bits_inj'. intros n Hn. rewrite Z.land_spec, Z.ldiff_spec, Z.bits_0.
      destruct (Z.testbit (2 ^ k) n); [now rewrite andb_false_r|now rewrite andb_false_r]. }
    assert (Hs : Z.ldiff a (2 ^ k) + 2 ^ k = a).
    { rewrite Z.add_nocarry_lxor by exact Hl. apply Z.bits_inj'. intros n Hn.
      rewrite Z.lxor_spec, Z.ldiff_spec. destruct (Z.eq_dec n k) as [->|Hne].
      - rewrite Z.pow2_bits_true by lia. rewrite E. reflexivity.
      - rewrite Z.pow2_bits_false by lia. rewrite andb_true_r. now rewrite xorb_false_r. }
    lia.
  - apply Z.bits_inj'. intros n Hn. rewrite Z.ldiff_spec.
    destruct (Z.eq_dec n k) as [->|Hne].
    + now rewrite E.
    + rewrite Z.pow2_bits_false by lia. now rewrite andb_true_r.
Qed.
Lemma testbit_high a k : 0 <= k -> 0 <= a < 2 ^ (k + 1) -> Z.testbit a k = (2 ^ k <=? a).
Proof.
  intros Hk Ha. rewrite testbit_div by lia.
  rewrite Z.pow_add_r in Ha by lia.
  destruct (2 ^ k <=? a) eqn:E.
  - replace (a / 2 ^ k) with 1; [reflexivity|].
    apply Z.div_unique with (a - 2 ^ k); lia.
  - rewrite Z.div_small by lia. reflexivity.
Qed.

(** * The encoders *)
Lemma be_length k n : List.length (be k n) = k.
Proof. revert n; induction k as [|k IH]; intro n; cbn [be]; [reflexivity|]. rewrite app_length, IH. cbn. lia. Qed.
Lemma len_be k n : len (be k n) = Z.of_nat k.
Proof. unfold len. now rewrite be_length. Qed.
Lemma le_length k n : List.length (le k n) = k.
Proof. revert n; induction k as [|k IH]; intro n; cbn [le]; [reflexivity|]. cbn. now rewrite IH. Qed.
Lemma len_le k n : len (le k n) = Z.of_nat k.
Proof. unfold len. now rewrite le_length. Qed.
Lemma be_bytes k n : all_bytes (be k n).
Proof.
  revert n; induction k as [|k IH]; intro n; cbn [be]; [constructor|].
  apply Forall_app; split; [apply IH|]. constructor; [|constructor]. unfold is_byte. lia.
Qed.
Lemma le_bytes k n : all_bytes (le k n).
Proof.
  revert n; induction k as [|k IH]; intro n; cbn [le]; [constructor|].
  constructor; [unfold is_byte; lia|apply IH].
Qed.
Lemma be_val_snoc l b : be_val (l ++ [b]) = be_val l * 256 + b.
Proof. unfold be_val. now rewrite fold_left_app. Qed.
Lemma pow256_S k : 256 ^ Z.of_nat (S k) = 256 * 256 ^ Z.of_nat k.
Proof. rewrite Nat2Z.inj_succ, Z.pow_succ_r by lia. reflexivity. Qed.
Lemma be_val_be k n : be_val (be k n) = n mod 256 ^ Z.of_nat k.
Proof.
  revert n; induction k as [|k IH]; intro n.
  - cbn [be]. change (256 ^ Z.of_nat 0) with 1. rewrite Z.mod_1_r. reflexivity.
  - cbn [be]. rewrite be_val_snoc, IH, pow256_S.
    assert (0 < 256 ^ Z.of_nat k) by (apply Z.pow_pos_nonneg; lia).
    rewrite (Z.rem_mul_r n 256) by lia. lia.
Qed.
Lemma be_val_be_small k n : 0 <= n < 256 ^ Z.of_nat k -> be_val (be k n) = n.
Proof. intro H. rewrite be_val_be. now apply Z.mod_small. Qed.
Lemma le_val_le k n : le_val (le k n) = n mod 256 ^ Z.of_nat k.
Proof.
  revert n; induction k as [|k IH]; intro n.
  - cbn [le]. change (256 ^ Z.of_nat 0) with 1. rewrite Z.mod_1_r. reflexivity.
  - cbn [le le_val]. rewrite IH, pow256_S.
    assert (0 < 256 ^ Z.of_nat k) by (apply Z.pow_pos_nonneg; lia).
    rewrite (Z.rem_mul_r n 256) by lia. lia.
Qed.
Lemma le_val_le_small k n : 0 <= n < 256 ^ Z.of_nat k -> le_val (le k n) = n.
Proof. intro H. rewrite le_val_le. now apply Z.mod_small. Qed.
Lemma be_val_bound l : all_bytes l -> 0 <= be_val l < 256 ^ len l.
Proof.
  induction l as [|b l IH] using rev_ind; intro H.
  - unfold be_val. cbn. lia.
  - apply Forall_app in H as [H1 H2]. inversion H2 as [|? ? Hb _]; subst. unfold is_byte in Hb.
    rewrite be_val_snoc, len_app. change (len [b]) with 1.
    specialize (IH H1). rewrite Z.pow_add_r by (try apply len_nonneg; lia).
    change (256 ^ 1) with 256. nia.
Qed.

(** * all_bytes *)
Lemma all_bytes_app a b : all_bytes (a ++ b) <-> all_bytes a /\ all_bytes b.
Proof. apply Forall_app. Qed.
Lemma all_bytes_skipn n l : all_bytes l -> all_bytes (skipn n l).
Proof. intro H. rewrite <- (firstn_skipn n l) in H. now apply all_bytes_app in H. Qed.
Lemma all_bytes_firstn n l : all_bytes l -> all_bytes (firstn n l).
Proof. intro H. rewrite <- (firstn_skipn n l) in H. now apply all_bytes_app in H. Qed.
Lemma zeros_bytes n : all_bytes (zeros n).
Proof. induction n; cbn; constructor; [unfold is_byte; lia|assumption]. Qed.

(** * Strings *)
Lemma beq_refl a : beq a a = true.
Proof. induction a as [|x a IH]; cbn; [reflexivity|]. now rewrite Z.eqb_refl. Qed.
Lemma beq_eq a b : beq a b = true <-> a = b.
Proof.
  split; [|intros ->; apply beq_refl].
  revert b; induction a as [|x a IH]; intros [|y b]; cbn; try discriminate; [reflexivity|].
  intro H. apply andb_true_iff in H as [H1 H2]. apply Z.eqb_eq in H1. now rewrite H1, (IH b H2).
Qed.
Lemma beq_neq a b : beq a b = false <-> a <> b.
Proof.
  destruct (beq a b) eqn:E.
  - apply beq_eq in E. split; [discriminate|contradiction].
  - split; [|reflexivity]. intros _ H. apply beq_eq in H. congruence.
Qed.

Ltac solve_bytes := unfold all_bytes;
  repeat first [apply Forall_cons; [unfold is_byte; lia|] | apply Forall_nil].
