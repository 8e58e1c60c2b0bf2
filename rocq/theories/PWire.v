(** Proofs about the integer readers of Utils.v. *)
From Coq Require Import ZifyBool.
From Verif Require Import GoBase Utils SpecInno PBase.
Local Open Scope list_scope.

(** * Big-endian readers *)
Ltac idx := rewrite !index_0 || (erewrite index_some by (lia || reflexivity)); cbn [bind].

Lemma index_1 {A} (a b : A) l : index (a :: b :: l) 1 = Ok b.
Proof. apply index_some; [lia|reflexivity]. Qed.
Lemma index_2 {A} (a b c : A) l : index (a :: b :: c :: l) 2 = Ok c.
Proof. apply index_some; [lia|reflexivity]. Qed.
Lemma index_3 {A} (a b c d : A) l : index (a :: b :: c :: d :: l) 3 = Ok d.
Proof. apply index_some; [lia|reflexivity]. Qed.
Lemma index_4 {A} (a b c d e : A) l : index (a :: b :: c :: d :: e :: l) 4 = Ok e.
Proof. apply index_some; [lia|reflexivity]. Qed.
Lemma index_5 {A} (a b c d e f : A) l : index (a :: b :: c :: d :: e :: f :: l) 5 = Ok f.
Proof. apply index_some; [lia|reflexivity]. Qed.
Lemma index_6 {A} (a b c d e f g : A) l : index (a :: b :: c :: d :: e :: f :: g :: l) 6 = Ok g.
Proof. apply index_some; [lia|reflexivity]. Qed.
Lemma index_7 {A} (a b c d e f g h : A) l :
  index (a :: b :: c :: d :: e :: f :: g :: h :: l) 7 = Ok h.
Proof. apply index_some; [lia|reflexivity]. Qed.

Lemma index_short {A} (d : list A) i : 0 <= i -> (List.length d <= Z.to_nat i)%nat -> index d i = Panic.
Proof. intros Hi H. apply index_panic. right. unfold len. lia. Qed.

Lemma mrf1_cons b0 l : MatchReadFrom1 (b0 :: l) = Ok b0.
Proof. apply index_0. Qed.
Lemma mrf2_cons b0 b1 l : is_byte b0 -> is_byte b1 ->
  MatchReadFrom2 (b0 :: b1 :: l) = Ok (b0 * 256 + b1).
Proof.
  intros H0 H1. unfold MatchReadFrom2. rewrite index_0, index_1. cbn [bind].
  rewrite lor_shiftl; [reflexivity|lia|]. exact H1.
Qed.
Lemma mrf3_cons b0 b1 b2 l : is_byte b0 -> is_byte b1 -> is_byte b2 ->
  MatchReadFrom3 (b0 :: b1 :: b2 :: l) = Ok ((b0 * 256 + b1) * 256 + b2).
Proof.
  unfold is_byte. intros H0 H1 H2. unfold MatchReadFrom3. rewrite index_0, index_1, index_2. cbn [bind].
  f_equal. rewrite <- Z.lor_assoc. rewrite (lor_shiftl b1 b2 8) by lia.
  rewrite (lor_shiftl b0 _ 16) by lia. lia.
Qed.
Lemma mrf4_cons b0 b1 b2 b3 l : is_byte b0 -> is_byte b1 -> is_byte b2 -> is_byte b3 ->
  MatchReadFrom4 (b0 :: b1 :: b2 :: b3 :: l) = Ok (((b0 * 256 + b1) * 256 + b2) * 256 + b3).
Proof.
  unfold is_byte. intros H0 H1 H2 H3. unfold MatchReadFrom4.
  rewrite index_0, index_1, index_2, index_3. cbn [bind].
  f_equal. rewrite <- !Z.lor_assoc. rewrite (lor_shiftl b2 b3 8) by lia.
  rewrite (lor_shiftl b1 _ 16) by lia. rewrite (lor_shiftl b0 _ 24) by lia. lia.
Qed.

(** A reader applied to k bytes followed by anything *)
Lemma mrf1_app l rest : all_bytes l -> List.length l = 1%nat -> MatchReadFrom1 (l ++ rest) = Ok (be_val l).
Proof.
  destruct l as [|b0 [|? ?]]; try discriminate. intros _ _. cbn [app]. rewrite mrf1_cons.
  reflexivity.
Qed.
Lemma mrf2_app l rest : all_bytes l -> List.length l = 2%nat -> MatchReadFrom2 (l ++ rest) = Ok (be_val l).
Proof.
  destruct l as [|b0 [|b1 [|? ?]]]; try discriminate. intros H _.
  inversion H as [|? ? H0 Ha]; subst. inversion Ha as [|? ? H1 _]; subst.
  cbn [app]. rewrite mrf2_cons by assumption. reflexivity.
Qed.
Lemma mrf3_app l rest : all_bytes l -> List.length l = 3%nat -> MatchReadFrom3 (l ++ rest) = Ok (be_val l).
Proof.
  destruct l as [|b0 [|b1 [|b2 [|? ?]]]]; try discriminate. intros H _.
  inversion H as [|? ? H0 Ha]; subst. inversion Ha as [|? ? H1 Hb]; subst. inversion Hb as [|? ? H2 _]; subst.
  cbn [app]. rewrite mrf3_cons by assumption. reflexivity.
Qed.
Lemma mrf4_app l rest : all_bytes l -> List.length l = 4%nat -> MatchReadFrom4 (l ++ rest) = Ok (be_val l).
Proof.
  destruct l as [|b0 [|b1 [|b2 [|b3 [|? ?]]]]]; try discriminate. intros H _.
  inversion H as [|? ? H0 Ha]; subst. inversion Ha as [|? ? H1 Hb]; subst.
  inversion Hb as [|? ? H2 Hc]; subst. inversion Hc as [|? ? H3 _]; subst.
  cbn [app]. rewrite mrf4_cons by assumption. reflexivity.
Qed.
Lemma ut_create h l : 0 <= h < 2 ^ 32 -> 0 <= l < 2 ^ 32 -> Z.lor (u64 (Z.shiftl h 32)) l = h * 2 ^ 32 + l.
Proof.
  intros Hh Hl. rewrite u64_id.
  - apply lor_shiftl; lia.
  - rewrite Z.shiftl_mul_pow2 by lia. lia.
Qed.
Lemma be_val_app a b : be_val (a ++ b) = be_val a * 256 ^ len b + be_val b.
Proof.
  induction b as [|x b IH] using rev_ind.
  - rewrite app_nil_r. unfold be_val at 3. cbn. lia.
  - rewrite app_assoc, !be_val_snoc, IH, len_app. change (len [x]) with 1.
    rewrite Z.pow_add_r by (try apply len_nonneg; lia). change (256 ^ 1) with 256. lia.
Qed.
Lemma mrf7_app l rest : all_bytes l -> List.length l = 7%nat -> MatchReadFrom7 (l ++ rest) = Ok (be_val l).
Proof.
  intros H Hl. rewrite <- (firstn_skipn 3 l). set (a := firstn 3 l). set (b := skipn 3 l).
  assert (Ha : List.length a = 3%nat) by (unfold a; rewrite firstn_length; lia).
  assert (Hb : List.length b = 4%nat) by (unfold b; rewrite skipn_length; lia).
  assert (Ba : all_bytes a) by (now apply all_bytes_firstn).
  assert (Bb : all_bytes b) by (now apply all_bytes_skipn).
  unfold MatchReadFrom7. rewrite <- app_assoc. rewrite mrf3_app by assumption. cbn [bind].
  rewrite slice_from_app_eq by (unfold len; lia). cbn [bind].
  rewrite mrf4_app by assumption. cbn [bind]. f_equal. unfold UtUllCreate.
  pose proof (be_val_bound a Ba) as Va. pose proof (be_val_bound b Bb) as Vb.
  unfold len in Va, Vb. rewrite Ha in Va. rewrite Hb in Vb.
  change (256 ^ Z.of_nat 3) with (2 ^ 24) in Va. change (256 ^ Z.of_nat 4) with (2 ^ 32) in Vb.
  rewrite ut_create by lia. rewrite be_val_app. unfold len. rewrite Hb.
  change (256 ^ Z.of_nat 4) with (2 ^ 32). lia.
Qed.
Lemma mrf8_app l rest : all_bytes l -> List.length l = 8%nat -> MatchReadFrom8 (l ++ rest) = Ok (be_val l).
Proof.
  intros H Hl. rewrite <- (firstn_skipn 4 l). set (a := firstn 4 l). set (b := skipn 4 l).
  assert (Ha : List.length a = 4%nat) by (unfold a; rewrite firstn_length; lia).
  assert (Hb : List.length b = 4%nat) by (unfold b; rewrite skipn_length; lia).
  assert (Ba : all_bytes a) by (now apply all_bytes_firstn).
  assert (Bb : all_bytes b) by (now apply all_bytes_skipn).
  unfold MatchReadFrom8. rewrite <- app_assoc. rewrite mrf4_app by assumption. cbn [bind].
  rewrite slice_from_app_eq by (unfold len; lia). cbn [bind].
  rewrite mrf4_app by assumption. cbn [bind]. f_equal.
  pose proof (be_val_bound a Ba) as Va. pose proof (be_val_bound b Bb) as Vb.
  unfold len in Va, Vb. rewrite Ha in Va. rewrite Hb in Vb.
  change (256 ^ Z.of_nat 4) with (2 ^ 32) in *.
  rewrite ut_create by lia. rewrite be_val_app. unfold len. rewrite Hb.
  change (256 ^ Z.of_nat 4) with (2 ^ 32). lia.
Qed.

Lemma mrf1_be n rest : 0 <= n < 256 -> MatchReadFrom1 (be 1 n ++ rest) = Ok n.
Proof. intro H. rewrite mrf1_app by (apply be_bytes || apply be_length). f_equal. apply be_val_be_small. exact H. Qed.
Lemma mrf2_be n rest : 0 <= n < 256 ^ 2 -> MatchReadFrom2 (be 2 n ++ rest) = Ok n.
Proof. intro H. rewrite mrf2_app by (apply be_bytes || apply be_length). f_equal. apply be_val_be_small. exact H. Qed.
Lemma mrf3_be n rest : 0 <= n < 256 ^ 3 -> MatchReadFrom3 (be 3 n ++ rest) = Ok n.
Proof. intro H. rewrite mrf3_app by (apply be_bytes || apply be_length). f_equal. apply be_val_be_small. exact H. Qed.
Lemma mrf4_be n rest : 0 <= n < 256 ^ 4 -> MatchReadFrom4 (be 4 n ++ rest) = Ok n.
Proof. intro H. rewrite mrf4_app by (apply be_bytes || apply be_length). f_equal. apply be_val_be_small. exact H. Qed.
Lemma mrf7_be n rest : 0 <= n < 256 ^ 7 -> MatchReadFrom7 (be 7 n ++ rest) = Ok n.
Proof. intro H. rewrite mrf7_app by (apply be_bytes || apply be_length). f_equal. apply be_val_be_small. exact H. Qed.
Lemma mrf8_be n rest : 0 <= n < 256 ^ 8 -> MatchReadFrom8 (be 8 n ++ rest) = Ok n.
Proof. intro H. rewrite mrf8_app by (apply be_bytes || apply be_length). f_equal. apply be_val_be_small. exact H. Qed.

(** Short buffers *)
Ltac short_index d i := rewrite (index_short d i) by (cbn; lia).
Lemma mrf1_short d : (List.length d < 1)%nat -> MatchReadFrom1 d = Panic.
Proof. intro H. unfold MatchReadFrom1. now rewrite index_short by lia. Qed.
Lemma index_cases {A} (d : list A) i : 0 <= i ->
  (exists x, index d i = Ok x /\ (Z.to_nat i < List.length d)%nat)
  \/ (index d i = Panic /\ (List.length d <= Z.to_nat i)%nat).
Proof.
  intro Hi. destruct (Nat.lt_ge_cases (Z.to_nat i) (List.length d)) as [H|H].
  - left. destruct (index_total d i) as [x Hx]; [unfold len; lia|]. exists x. auto.
  - right. split; [apply index_short; assumption|assumption].
Qed.
Lemma mrf2_short d : (List.length d < 2)%nat -> MatchReadFrom2 d = Panic.
Proof.
  intro H. unfold MatchReadFrom2. rewrite (index_short d 1) by lia.
  destruct (index_cases d 0) as [[x [-> _]]|[-> _]]; [lia| |]; reflexivity.
Qed.
Lemma mrf3_short d : (List.length d < 3)%nat -> MatchReadFrom3 d = Panic.
Proof.
  intro H. unfold MatchReadFrom3. rewrite (index_short d 2) by lia.
  destruct (index_cases d 0) as [[x [-> _]]|[-> _]]; [lia| |reflexivity]. cbn [bind].
  destruct (index_cases d 1) as [[y [-> _]]|[-> _]]; [lia| |]; reflexivity.
Qed.
Lemma mrf4_short d : (List.length d < 4)%nat -> MatchReadFrom4 d = Panic.
Proof.
  intro H. unfold MatchReadFrom4. rewrite (index_short d 3) by lia.
  destruct (index_cases d 0) as [[x [-> _]]|[-> _]]; [lia| |reflexivity]. cbn [bind].
  destruct (index_cases d 1) as [[y [-> _]]|[-> _]]; [lia| |reflexivity]. cbn [bind].
  destruct (index_cases d 2) as [[z [-> _]]|[-> _]]; [lia| |]; reflexivity.
Qed.
Lemma mrf4_total d : (4 <= List.length d)%nat -> exists v, MatchReadFrom4 d = Ok v.
Proof.
  intro H. unfold MatchReadFrom4.
  destruct (index_total d 0) as [? ->]; [unfold len; lia|].
  destruct (index_total d 1) as [? ->]; [unfold len; lia|].
  destruct (index_total d 2) as [? ->]; [unfold len; lia|].
  destruct (index_total d 3) as [? ->]; [unfold len; lia|]. cbn [bind]. eauto.
Qed.
Lemma mrf3_total d : (3 <= List.length d)%nat -> exists v, MatchReadFrom3 d = Ok v.
Proof.
  intro H. unfold MatchReadFrom3.
  destruct (index_total d 0) as [? ->]; [unfold len; lia|].
  destruct (index_total d 1) as [? ->]; [unfold len; lia|].
  destruct (index_total d 2) as [? ->]; [unfold len; lia|]. cbn [bind]. eauto.
Qed.
Lemma mrf7_short d : (List.length d < 7)%nat -> MatchReadFrom7 d = Panic.
Proof.
  intro H. unfold MatchReadFrom7.
  destruct (Nat.lt_ge_cases (List.length d) 3) as [Hs|Hl].
  - now rewrite mrf3_short.
  - destruct (mrf3_total d Hl) as [v ->]. cbn [bind].
    rewrite slice_from_ok by (unfold len; lia). cbn [bind].
    rewrite mrf4_short; [reflexivity|]. rewrite skipn_length. lia.
Qed.
Lemma mrf8_short d : (List.length d < 8)%nat -> MatchReadFrom8 d = Panic.
Proof.
  intro H. unfold MatchReadFrom8.
  destruct (Nat.lt_ge_cases (List.length d) 4) as [Hs|Hl].
  - now rewrite mrf4_short.
  - destruct (mrf4_total d Hl) as [v ->]. cbn [bind].
    rewrite slice_from_ok by (unfold len; lia). cbn [bind].
    rewrite mrf4_short; [reflexivity|]. rewrite skipn_length. lia.
Qed.

(** Exact statement on any buffer *)
Lemma mrf1_spec d : all_bytes d ->
  MatchReadFrom1 d = if (1 <=? len d) then Ok (be_val (firstn 1 d)) else Panic.
Proof.
  intro H. destruct (1 <=? len d) eqn:E.
  - rewrite <- (firstn_skipn 1 d) at 1. apply mrf1_app; [now apply all_bytes_firstn|].
    rewrite firstn_length. unfold len in E. lia.
  - apply mrf1_short. unfold len in E. lia.
Qed.
Lemma mrf2_spec d : all_bytes d ->
  MatchReadFrom2 d = if (2 <=? len d) then Ok (be_val (firstn 2 d)) else Panic.
Proof.
  intro H. destruct (2 <=? len d) eqn:E.
  - rewrite <- (firstn_skipn 2 d) at 1. apply mrf2_app; [now apply all_bytes_firstn|].
    rewrite firstn_length. unfold len in E. lia.
  - apply mrf2_short. unfold len in E. lia.
Qed.
Lemma mrf3_spec d : all_bytes d ->
  MatchReadFrom3 d = if (3 <=? len d) then Ok (be_val (firstn 3 d)) else Panic.
Proof.
  intro H. destruct (3 <=? len d) eqn:E.
  - rewrite <- (firstn_skipn 3 d) at 1. apply mrf3_app; [now apply all_bytes_firstn|].
    rewrite firstn_length. unfold len in E. lia.
  - apply mrf3_short. unfold len in E. lia.
Qed.
Lemma mrf4_spec d : all_bytes d ->
  MatchReadFrom4 d = if (4 <=? len d) then Ok (be_val (firstn 4 d)) else Panic.
Proof.
  intro H. destruct (4 <=? len d) eqn:E.
  - rewrite <- (firstn_skipn 4 d) at 1. apply mrf4_app; [now apply all_bytes_firstn|].
    rewrite firstn_length. unfold len in E. lia.
  - apply mrf4_short. unfold len in E. lia.
Qed.
Lemma mrf7_spec d : all_bytes d ->
  MatchReadFrom7 d = if (7 <=? len d) then Ok (be_val (firstn 7 d)) else Panic.
Proof.
  intro H. destruct (7 <=? len d) eqn:E.
  - rewrite <- (firstn_skipn 7 d) at 1. apply mrf7_app; [now apply all_bytes_firstn|].
    rewrite firstn_length. unfold len in E. lia.
  - apply mrf7_short. unfold len in E. lia.
Qed.
Lemma mrf8_spec d : all_bytes d ->
  MatchReadFrom8 d = if (8 <=? len d) then Ok (be_val (firstn 8 d)) else Panic.
Proof.
  intro H. destruct (8 <=? len d) eqn:E.
  - rewrite <- (firstn_skipn 8 d) at 1. apply mrf8_app; [now apply all_bytes_firstn|].
    rewrite firstn_length. unfold len in E. lia.
  - apply mrf8_short. unfold len in E. lia.
Qed.

(** * Compressed integers *)
(** The reader on the bytes from its position on *)
Definition mpc (d : bytes) (room : bool) : res (Z * Z * option bytes) :=
  flag <- MatchReadFrom1 d ;;
  if flag <? 128 then Ok (flag, 1, None)
  else if flag <? 192 then v <- MatchReadFrom2 d ;; Ok (v mod 2 ^ 15, 2, None)
  else if flag <? 224 then v <- MatchReadFrom3 d ;; Ok (v mod 2 ^ 22, 3, None)
  else if flag <? 240 then v <- MatchReadFrom4 d ;; Ok (v mod 2 ^ 29, 4, None)
  else if len d <? 5 then Ok (0, 5, Some err_short_compressed)
  else v <- MatchReadFrom4 (skipn 1 d) ;; Ok (v, 5, None).

Lemma mpc_at pre d : len pre + len d < 2 ^ 63 ->
  MatchParseCompressed (pre ++ d) (len pre) = mpc d true.
Proof.
  intro Hb. unfold MatchParseCompressed, mpc. rewrite slice_from_app. cbn [bind].
  pose proof (len_nonneg pre) as Hp. pose proof (len_nonneg d) as Hd.
  destruct (MatchReadFrom1 d) as [flag| |] eqn:E1; cbn [bind]; try reflexivity.
  destruct (flag <? 128); [reflexivity|].
  destruct (flag <? 192).
  { destruct (MatchReadFrom2 d); cbn [bind]; try reflexivity. f_equal. f_equal. f_equal.
    apply (land_ones _ 15). lia. }
  destruct (flag <? 224).
  { destruct (MatchReadFrom3 d); cbn [bind]; try reflexivity. f_equal. f_equal. f_equal.
    apply (land_ones _ 22). lia. }
  destruct (flag <? 240).
  { destruct (MatchReadFrom4 d); cbn [bind]; try reflexivity. f_equal. f_equal. f_equal.
    apply (land_ones _ 29). lia. }
  rewrite len_app, u64_id by lia.
  replace (len pre + len d <? len pre + 5) with (len d <? 5) by lia.
  destruct (len d <? 5) eqn:E5; [reflexivity|].
  rewrite u64_id by lia.
  rewrite slice_from_ok by (rewrite len_app; lia). cbn [bind].
  replace (Z.to_nat (len pre + 1)) with (List.length pre + 1)%nat by (unfold len; lia).
  rewrite <- skipn_skipn. rewrite skipn_app_len. reflexivity.
Qed.

Lemma be1_cons n : be 1 n = [n mod 256].
Proof. reflexivity. Qed.
Lemma be2_cons n : be 2 n = [n / 256 mod 256; n mod 256].
Proof. reflexivity. Qed.
Lemma be3_cons n : be 3 n = [n / 256 / 256 mod 256; n / 256 mod 256; n mod 256].
Proof. reflexivity. Qed.
Lemma be4_cons n : be 4 n = [n / 256 / 256 / 256 mod 256; n / 256 / 256 mod 256; n / 256 mod 256; n mod 256].
Proof. reflexivity. Qed.

Lemma mpc_enc n rest : 0 <= n < 2 ^ 32 ->
  mpc (enc_compressed n ++ rest) true = Ok (n, len (enc_compressed n), None).
Proof.
  intro H. unfold enc_compressed, mpc.
  destruct (n <? 128) eqn:E1.
  { rewrite mrf1_be by lia. cbn [bind]. rewrite E1. reflexivity. }
  destruct (n <? 16384) eqn:E2.
  { rewrite mrf2_be by lia.
    rewrite be2_cons at 1. cbn [app]. rewrite mrf1_cons. cbn [bind].
    set (f := (32768 + n) / 256 mod 256).
    assert (Hf : 128 <= f < 192) by (unfold f; lia).
    destruct (f <? 128) eqn:F1; [lia|]. destruct (f <? 192) eqn:F2; [|lia].
    rewrite len_be. f_equal. f_equal. f_equal. lia. }
  destruct (n <? 2097152) eqn:E3.
  { rewrite mrf3_be by lia.
    rewrite be3_cons at 1. cbn [app]. rewrite mrf1_cons. cbn [bind].
    set (f := (12582912 + n) / 256 / 256 mod 256).
    assert (Hf : 192 <= f < 224) by (unfold f; lia).
    destruct (f <? 128) eqn:F1; [lia|]. destruct (f <? 192) eqn:F2; [lia|].
    destruct (f <? 224) eqn:F3; [|lia].
    rewrite len_be. f_equal. f_equal. f_equal. lia. }
  destruct (n <? 268435456) eqn:E4.
  { rewrite mrf4_be by lia.
    rewrite be4_cons at 1. cbn [app]. rewrite mrf1_cons. cbn [bind].
    set (f := (3758096384 + n) / 256 / 256 / 256 mod 256).
    assert (Hf : 224 <= f < 240) by (unfold f; lia).
    destruct (f <? 128) eqn:F1; [lia|]. destruct (f <? 192) eqn:F2; [lia|].
    destruct (f <? 224) eqn:F3; [lia|]. destruct (f <? 240) eqn:F4; [|lia].
    rewrite len_be. f_equal. f_equal. f_equal. lia. }
  cbn [app]. rewrite mrf1_cons. cbn [bind].
  change (240 <? 128) with false. change (240 <? 192) with false.
  change (240 <? 224) with false. change (240 <? 240) with false. cbv iota.
  assert (len (240 :: be 4 n ++ rest) <? 5 = false) as ->.
  { rewrite len_cons, len_app, len_be. pose proof (len_nonneg rest). lia. }
  cbn [skipn]. rewrite mrf4_be by lia. cbn [bind]. rewrite len_cons, len_be. reflexivity.
Qed.

Lemma len_enc_compressed n : len (enc_compressed n) = MatchGetCompressedSize n.
Proof.
  unfold enc_compressed, MatchGetCompressedSize.
  destruct (n <? 128); [reflexivity|]. destruct (n <? 16384); [reflexivity|].
  destruct (n <? 2097152); [reflexivity|]. destruct (n <? 268435456); [reflexivity|].
  rewrite len_cons, len_be. reflexivity.
Qed.
Lemma size_range n : 1 <= MatchGetCompressedSize n <= 5.
Proof.
  unfold MatchGetCompressedSize. repeat match goal with |- context [?a <? ?b] => destruct (a <? b) end; lia.
Qed.

Lemma compressed_roundtrip pre n rest : 0 <= n < 2 ^ 32 ->
  len (pre ++ enc_compressed n ++ rest) < 2 ^ 63 ->
  MatchParseCompressed (pre ++ enc_compressed n ++ rest) (len pre)
    = Ok (n, len (enc_compressed n), None).
Proof.
  intros H Hl. rewrite mpc_at by (rewrite len_app in Hl; exact Hl). now apply mpc_enc.
Qed.

(** Totality of the reader *)
Definition truncated_form (b : Z) (room : Z) : Prop :=
  (128 <= b < 192 /\ room < 2) \/ (192 <= b < 224 /\ room < 3) \/ (224 <= b < 240 /\ room < 4).

Lemma all_bytes_nth d i b : all_bytes d -> nth_error d i = Some b -> is_byte b.
Proof. intros H E. apply nth_error_In in E. unfold all_bytes in H. rewrite Forall_forall in H. auto. Qed.

Lemma compressed_cases data pos :
  all_bytes data -> len data < 2 ^ 63 -> 0 <= pos ->
  (pos < len data -> exists b, nth_error data (Z.to_nat pos) = Some b /\
     ((truncated_form b (len data - pos) /\ MatchParseCompressed data pos = Panic)
      \/ (240 <= b /\ len data - pos < 5
          /\ exists e, MatchParseCompressed data pos = Ok (0, 5, Some e))
      \/ exists v n, MatchParseCompressed data pos = Ok (v, n, None)
           /\ 0 <= v < 2 ^ 32 /\ 1 <= n <= 5 /\ pos + n <= len data
           /\ ~ truncated_form b (len data - pos) /\ ~ (240 <= b /\ len data - pos < 5)))
  /\ (len data <= pos -> MatchParseCompressed data pos = Panic).
Proof.
  intros Hb Hl Hp. split.
  - intro Hin. destruct (index_total data pos) as [b Hi]; [lia|].
    apply index_ok_inv in Hi as [_ Hi]. exists b. split; [exact Hi|].
    assert (Hbb : is_byte b) by (eapply all_bytes_nth; eassumption).
    rewrite <- (firstn_skipn (Z.to_nat pos) data) in Hb.
    apply all_bytes_app in Hb as [_ Hd].
    assert (Hpre : len (firstn (Z.to_nat pos) data) = pos) by (rewrite len_firstn; lia).
    assert (Hdl : len (skipn (Z.to_nat pos) data) = len data - pos) by (rewrite len_skipn; lia).
    assert (E : MatchParseCompressed data pos = mpc (skipn (Z.to_nat pos) data) true).
    { pose proof (mpc_at (firstn (Z.to_nat pos) data) (skipn (Z.to_nat pos) data)) as M.
      rewrite firstn_skipn, Hpre, Hdl in M. apply M. lia. }
    rewrite E. clear E. rewrite <- Hdl. set (d := skipn (Z.to_nat pos) data) in *.
    assert (Hd0 : exists t, d = b :: t).
    { unfold d. assert (Hn : nth_error (skipn (Z.to_nat pos) data) 0 = Some b)
        by (rewrite nth_error_skipn, Nat.add_0_r; exact Hi).
      destruct (skipn (Z.to_nat pos) data) as [|x t]; [discriminate|]. injection Hn as ->. eauto. }
    destruct Hd0 as [t Ht]. unfold mpc.
    assert (E1 : MatchReadFrom1 d = Ok b) by (rewrite Ht; apply mrf1_cons). rewrite E1. cbn [bind].
    unfold is_byte in Hbb. unfold truncated_form.
    assert (Hld : len d = 1 + len t) by (rewrite Ht; apply len_cons).
    destruct (b <? 128) eqn:B1.
    { right. right. exists b, 1. repeat split; lia. }
    destruct (b <? 192) eqn:B2.
    { rewrite mrf2_spec by assumption. destruct (2 <=? len d) eqn:L; cbn [bind].
      - right. right. eexists _, 2. repeat split; try reflexivity; try lia.
      - left. split; [lia|reflexivity]. }
    destruct (b <? 224) eqn:B3.
    { rewrite mrf3_spec by assumption. destruct (3 <=? len d) eqn:L; cbn [bind].
      - right. right. eexists _, 3. repeat split; try reflexivity; try lia.
      - left. split; [lia|reflexivity]. }
    destruct (b <? 240) eqn:B4.
    { rewrite mrf4_spec by assumption. destruct (4 <=? len d) eqn:L; cbn [bind].
      - right. right. eexists _, 4. repeat split; try reflexivity; try lia.
      - left. split; [lia|reflexivity]. }
    destruct (len d <? 5) eqn:L.
    { right. left. repeat split; try lia. eexists; reflexivity. }
    right. right.
    assert (Hsk : all_bytes (skipn 1 d)) by (now apply all_bytes_skipn).
    rewrite mrf4_spec by assumption. rewrite len_skipn by lia.
    destruct (4 <=? len d - Z.of_nat 1) eqn:L4; [|lia]. cbn [bind].
    assert (Hf : all_bytes (firstn 4 (skipn 1 d))) by (now apply all_bytes_firstn).
    pose proof (be_val_bound _ Hf) as Hv. rewrite len_firstn in Hv by (rewrite len_skipn; lia).
    eexists _, 5. split; [reflexivity|].
    change (256 ^ Z.of_nat 4) with (2 ^ 32) in Hv. repeat split; lia.
  - intro Hout. unfold MatchParseCompressed.
    destruct (Z.eq_dec pos (len data)) as [->|].
    + rewrite slice_from_ok by lia. cbn [bind]. rewrite to_nat_len, skipn_all. reflexivity.
    + rewrite slice_from_panic by lia. reflexivity.
Qed.

(** * 64-bit compressed integers *)
Lemma ull_read_room pre n rest : 0 <= n < 2 ^ 64 -> len (enc_compressed (n / 2 ^ 32)) <= len rest -> all_bytes rest ->
  len (pre ++ enc_u64_compressed n ++ rest) < 2 ^ 63 ->
  MatchUllReadComPressed (pre ++ enc_u64_compressed n ++ rest) (len pre)
    = ([], len pre + len (enc_u64_compressed n), Ok (n / 2 ^ 32 * 2 ^ 32 +
        be_val (firstn 4 (skipn (Z.to_nat (len (enc_compressed (n / 2 ^ 32))))
                         (be 4 (n mod 2 ^ 32) ++ rest))))).
Proof.
  intros Hn Hr Hb Hl. rewrite len_enc_compressed in Hr. unfold enc_u64_compressed in *. rewrite <- app_assoc in *.
  set (hi := n / 2 ^ 32) in *. set (lo := n mod 2 ^ 32) in *.
  assert (Hhi : 0 <= hi < 2 ^ 32) by (unfold hi; lia).
  pose proof (len_nonneg pre) as Hpn. pose proof (size_range hi) as Hs.
  assert (Hb2 : all_bytes (be 4 lo ++ rest)) by (apply all_bytes_app; split; [apply be_bytes|assumption]).
  assert (Ll : len (be 4 lo ++ rest) = 4 + len rest) by (rewrite len_app, len_be; lia).
  unfold MatchUllReadComPressed, pbind, getpos, plift, advance.
  rewrite compressed_roundtrip by assumption.
  assert (Hl' : len pre + MatchGetCompressedSize hi + 4 + len rest < 2 ^ 63)
    by (rewrite !len_app, len_enc_compressed, len_be in Hl; lia).
  cbn [app]. rewrite len_app, len_enc_compressed.
  rewrite u64_id by lia. cbn [pret].
  rewrite app_assoc. rewrite slice_from_app_eq by (rewrite len_app, len_enc_compressed; lia).
  rewrite slice_from_ok by lia.
  rewrite mrf4_spec by (now apply all_bytes_skipn).
  rewrite len_skipn by lia.
  destruct (4 <=? _) eqn:E4; [|lia]. unfold pret. cbn [app].
  f_equal.
  - f_equal. rewrite u64_id by lia. rewrite len_be. lia.
  - f_equal. apply ut_create; [lia|].
    set (x := skipn (Z.to_nat (MatchGetCompressedSize hi)) (be 4 lo ++ rest)) in *.
    assert (Hx : all_bytes (firstn 4 x)) by (apply all_bytes_firstn; unfold x; now apply all_bytes_skipn).
    pose proof (be_val_bound _ Hx) as B. rewrite len_firstn in B; [exact B|].
    unfold x. rewrite len_skipn; lia.
Qed.
Lemma ull_read pre n rest : 0 <= n < 2 ^ 64 -> 5 <= len rest -> all_bytes rest ->
  len (pre ++ enc_u64_compressed n ++ rest) < 2 ^ 63 ->
  MatchUllReadComPressed (pre ++ enc_u64_compressed n ++ rest) (len pre)
    = ([], len pre + len (enc_u64_compressed n), Ok (n / 2 ^ 32 * 2 ^ 32 +
        be_val (firstn 4 (skipn (Z.to_nat (len (enc_compressed (n / 2 ^ 32))))
                         (be 4 (n mod 2 ^ 32) ++ rest))))).
Proof. intros. apply ull_read_room; try assumption. pose proof (size_range (n / 2 ^ 32)). rewrite len_enc_compressed. lia. Qed.

(** * Much compressed integers *)
Lemma much_read_small n rest : 0 <= n < 2 ^ 32 -> len (enc_compressed n ++ rest) < 2 ^ 63 ->
  MatchUllReadMuchCompressed (enc_much_compressed n ++ rest) = Ok (n, None).
Proof.
  intros Hn Hl. unfold enc_much_compressed. destruct (n <? 2 ^ 32) eqn:E; [|lia].
  unfold MatchUllReadMuchCompressed.
  assert (Hf : exists b t, enc_compressed n ++ rest = b :: t /\ b <> 255).
  { unfold enc_compressed.
    destruct (n <? 128) eqn:E1; [rewrite be1_cons; cbn [app]; eexists _, _; split; [reflexivity|lia]|].
    destruct (n <? 16384) eqn:E2; [rewrite be2_cons; cbn [app]; eexists _, _; split; [reflexivity|lia]|].
    destruct (n <? 2097152) eqn:E3; [rewrite be3_cons; cbn [app]; eexists _, _; split; [reflexivity|lia]|].
    destruct (n <? 268435456) eqn:E4; [rewrite be4_cons; cbn [app]; eexists _, _; split; [reflexivity|lia]|].
    cbn [app]. eexists _, _; split; [reflexivity|lia]. }
  destruct Hf as [b [t [Hf Hb]]].
  pose proof (compressed_roundtrip [] n rest Hn Hl) as R. cbn [app] in R. change (len []) with 0 in R.
  rewrite Hf in *. rewrite index_0. cbn [bind].
  destruct (b =? 255) eqn:Eb; [lia|]. cbn [negb bind].
  rewrite R. cbn [bind]. reflexivity.
Qed.
Lemma shiftr32 n : Z.shiftr n 32 = n / 2 ^ 32.
Proof. apply Z.shiftr_div_pow2. lia. Qed.
Lemma much_size_small n : 0 <= n < 2 ^ 32 -> MachUllGetMuchCompressedSize n = len (enc_much_compressed n).
Proof.
  intro Hn. unfold MachUllGetMuchCompressedSize, enc_much_compressed. rewrite shiftr32.
  rewrite Z.div_small by lia. destruct (n <? 2 ^ 32) eqn:E; [|lia]. cbn. now rewrite len_enc_compressed.
Qed.
Lemma much_read_large n rest : 2 ^ 32 <= n < 2 ^ 64 -> len (enc_much_compressed n ++ rest) < 2 ^ 63 ->
  MatchUllReadMuchCompressed (enc_much_compressed n ++ rest) = Ok (n mod 2 ^ 32, None).
Proof.
  intros Hn Hl. unfold enc_much_compressed in *. destruct (n <? 2 ^ 32) eqn:E; [lia|].
  set (hi := n / 2 ^ 32) in *. set (lo := n mod 2 ^ 32) in *.
  assert (Hhi : 0 <= hi < 2 ^ 32) by (unfold hi; lia).
  assert (Hlo : 0 <= lo < 2 ^ 32) by (unfold lo; lia).
  unfold MatchUllReadMuchCompressed.
  replace ((255 :: enc_compressed hi ++ enc_compressed lo) ++ rest)
    with ([255] ++ enc_compressed hi ++ (enc_compressed lo ++ rest)) in *
    by (cbn [app]; now rewrite <- app_assoc).
  assert (I0 : forall x, index ([255] ++ x) 0 = Ok 255) by (intro x; apply index_0).
  rewrite I0. cbn [bind].
  change (negb (255 =? 255)) with false. cbv iota.
  change 1 with (len [255]) at 1.
  rewrite compressed_roundtrip by assumption. cbn [bind].
  rewrite app_assoc. replace (1 + MatchGetCompressedSize hi) with (len ([255] ++ enc_compressed hi))
    by (rewrite len_app, len_enc_compressed; reflexivity).
  rewrite compressed_roundtrip by (try assumption; rewrite <- app_assoc; assumption).
  cbn [bind]. reflexivity.
Qed.
Lemma much_size_large n : 2 ^ 32 <= n < 2 ^ 64 ->
  MachUllGetMuchCompressedSize n = len (enc_much_compressed n) - 1.
Proof.
  intro Hn. unfold MachUllGetMuchCompressedSize, enc_much_compressed. rewrite shiftr32.
  destruct (n / 2 ^ 32 =? 0) eqn:E0; [lia|]. destruct (n <? 2 ^ 32) eqn:E; [lia|].
  change 4294967295 with (2 ^ 32 - 1). rewrite land_ones by lia.
  rewrite len_cons, len_app, !len_enc_compressed. lia.
Qed.

(** * Little-endian readers *)
Lemma le2_app l rest : all_bytes l -> List.length l = 2%nat -> le16 (l ++ rest) = Ok (le_val l).
Proof.
  destruct l as [|b0 [|b1 [|? ?]]]; try discriminate. intros H _.
  inversion H as [|? ? H0 Ha]; subst. inversion Ha as [|? ? H1 _]; subst. unfold is_byte in *.
  cbn [app]. unfold le16. rewrite index_0, index_1. cbn [bind le_val]. f_equal.
  rewrite Z.lor_comm, lor_shiftl by lia. lia.
Qed.
Lemma le3_app l rest : all_bytes l -> List.length l = 3%nat -> ParseBinaryUint24 (l ++ rest) = Ok (le_val l).
Proof.
  destruct l as [|b0 [|b1 [|b2 [|? ?]]]]; try discriminate. intros H _.
  inversion H as [|? ? H0 Ha]; subst. inversion Ha as [|? ? H1 Hb]; subst. inversion Hb as [|? ? H2 _]; subst.
  unfold is_byte in *.
  cbn [app]. unfold ParseBinaryUint24. rewrite index_0, index_1, index_2. cbn [bind le_val]. f_equal.
  rewrite (Z.lor_comm b0), lor_shiftl by lia. rewrite Z.lor_comm, lor_shiftl by lia. lia.
Qed.
Lemma le4_app l rest : all_bytes l -> List.length l = 4%nat -> le32 (l ++ rest) = Ok (le_val l).
Proof.
  destruct l as [|b0 [|b1 [|b2 [|b3 [|? ?]]]]]; try discriminate. intros H _.
  inversion H as [|? ? H0 Ha]; subst. inversion Ha as [|? ? H1 Hb]; subst.
  inversion Hb as [|? ? H2 Hc]; subst. inversion Hc as [|? ? H3 _]; subst. unfold is_byte in *.
  cbn [app]. unfold le32. rewrite index_0, index_1, index_2, index_3. cbn [bind le_val]. f_equal.
  rewrite (Z.lor_comm b0), lor_shiftl by lia.
  rewrite (Z.lor_comm _ (Z.shiftl b2 16)), lor_shiftl by lia.
  rewrite (Z.lor_comm _ (Z.shiftl b3 24)), lor_shiftl by lia. lia.
Qed.
Lemma le8_app l rest : all_bytes l -> List.length l = 8%nat -> le64 (l ++ rest) = Ok (le_val l).
Proof.
  destruct l as [|b0 [|b1 [|b2 [|b3 [|b4 [|b5 [|b6 [|b7 [|? ?]]]]]]]]]; try discriminate. intros H _.
  inversion H as [|? ? H0 Ha]; subst. inversion Ha as [|? ? H1 Hb]; subst.
  inversion Hb as [|? ? H2 Hc]; subst. inversion Hc as [|? ? H3 Hd]; subst.
  inversion Hd as [|? ? H4 He]; subst. inversion He as [|? ? H5 Hf]; subst.
  inversion Hf as [|? ? H6 Hg]; subst. inversion Hg as [|? ? H7 _]; subst. unfold is_byte in *.
  cbn [app]. unfold le64. rewrite index_0, index_1, index_2, index_3, index_4, index_5, index_6, index_7.
  cbn [bind le_val]. f_equal.
  rewrite (Z.lor_comm b0), lor_shiftl by lia.
  rewrite (Z.lor_comm _ (Z.shiftl b2 16)), lor_shiftl by lia.
  rewrite (Z.lor_comm _ (Z.shiftl b3 24)), lor_shiftl by lia.
  rewrite (Z.lor_comm _ (Z.shiftl b4 32)), lor_shiftl by lia.
  rewrite (Z.lor_comm _ (Z.shiftl b5 40)), lor_shiftl by lia.
  rewrite (Z.lor_comm _ (Z.shiftl b6 48)), lor_shiftl by lia.
  rewrite (Z.lor_comm _ (Z.shiftl b7 56)), lor_shiftl by lia. lia.
Qed.
(** two's complement *)
Lemma to_signed_mod w v : 1 <= w -> - 2 ^ (w - 1) <= v < 2 ^ (w - 1) -> to_signed w (v mod 2 ^ w) = v.
Proof.
  intros Hw Hv. unfold to_signed.
  assert (Hp : 2 ^ w = 2 * 2 ^ (w - 1)).
  { replace w with (1 + (w - 1)) at 1 by lia. rewrite Z.pow_add_r by lia. reflexivity. }
  assert (0 < 2 ^ (w - 1)) by (apply Z.pow_pos_nonneg; lia).
  destruct (Z.ltb_spec v 0).
  - replace (v mod 2 ^ w) with (v + 2 ^ w) by (apply Z.mod_unique with (-1); lia).
    destruct (v + 2 ^ w <? 2 ^ (w - 1)) eqn:E; lia.
  - rewrite Z.mod_small by lia. destruct (v <? 2 ^ (w - 1)) eqn:E; lia.
Qed.
Lemma int24_spec rest v : - 2 ^ 23 <= v < 2 ^ 23 -> ParseBinaryInt24 (le 3 v ++ rest) = Ok v.
Proof.
  intro Hv. unfold ParseBinaryInt24.
  rewrite le3_app by (apply le_bytes || apply le_length). cbn [bind].
  rewrite le_val_le. change (256 ^ Z.of_nat 3) with (2 ^ 24).
  change 8388608 with (2 ^ 23). rewrite land_pow2 by lia.
  set (u := v mod 2 ^ 24). assert (Hu : 0 <= u < 2 ^ 24) by (unfold u; lia).
  rewrite testbit_high by lia.
  f_equal. destruct (2 ^ 23 <=? u) eqn:E.
  - change (2 ^ 23 =? 0) with false. cbv iota.
    change 4278190080 with (Z.shiftl 255 24). rewrite Z.lor_comm, lor_shiftl by lia.
    unfold to_signed. destruct (_ <? _) eqn:E2; unfold u in *; lia.
  - change (0 =? 0) with true. cbv iota. unfold to_signed. destruct (_ <? _) eqn:E2; unfold u in *; lia.
Qed.

Lemma fli_loop i buf num : 0 <= i -> all_bytes buf -> 0 <= num < 256 ^ i -> num < 2 ^ 64 ->
  FixedLengthInt_loop i buf num
    = num + 256 ^ i * le_val (firstn (8 - Z.to_nat i) buf).
Proof.
  revert i num; induction buf as [|b t IH]; intros i num Hi Hb Hn H64.
  - cbn [FixedLengthInt_loop]. rewrite firstn_nil. cbn [le_val]. lia.
  - inversion Hb as [|? ? Hbb Ht]; subst. unfold is_byte in Hbb. cbn [FixedLengthInt_loop].
    destruct (Z.ltb_spec i 8).
    + assert (Hs : u64 (Z.shiftl b (i * 8)) = Z.shiftl b (i * 8)).
      { apply u64_id. rewrite Z.shiftl_mul_pow2 by lia.
        assert (2 ^ (i * 8) <= 2 ^ 56) by (apply Z.pow_le_mono_r; lia).
        assert (0 < 2 ^ (i * 8)) by (apply Z.pow_pos_nonneg; lia). nia. }
      assert (H256 : 256 ^ i = 2 ^ (i * 8)).
      { change 256 with (2 ^ 8). rewrite <- Z.pow_mul_r by lia. f_equal. lia. }
      rewrite Hs, Z.lor_comm, lor_shiftl by lia.
      assert (0 < 2 ^ (i * 8)) by (apply Z.pow_pos_nonneg; lia).
      assert (H2561 : 256 ^ (i + 1) = 256 * 256 ^ i) by (rewrite Z.pow_add_r by lia; lia).
      rewrite IH; try lia; try assumption.
      * replace (8 - Z.to_nat i)%nat with (S (8 - Z.to_nat (i + 1))) by lia.
        cbn [firstn le_val]. rewrite H2561, H256. lia.
      * rewrite H2561, H256. nia.
      * assert (2 ^ (i * 8) <= 2 ^ 56) by (apply Z.pow_le_mono_r; lia). nia.
    + assert (Hs : u64 (Z.shiftl b (i * 8)) = 0).
      { unfold u64. rewrite Z.shiftl_mul_pow2 by lia.
        replace (i * 8) with (64 + (i * 8 - 64)) by lia. rewrite Z.pow_add_r by lia.
        replace (b * (2 ^ 64 * 2 ^ (i * 8 - 64))) with (b * 2 ^ (i * 8 - 64) * 2 ^ 64) by lia.
        apply Z.mod_mul. lia. }
      rewrite Hs, Z.lor_0_r.
      replace (8 - Z.to_nat i)%nat with 0%nat by lia. cbn [firstn le_val].
      rewrite IH; try lia; try assumption.
      * replace (8 - Z.to_nat (i + 1))%nat with 0%nat by lia. cbn [firstn le_val]. lia.
      * rewrite Z.pow_add_r by lia. lia.
Qed.
Lemma fli_spec buf : all_bytes buf -> FixedLengthInt buf = le_val (firstn 8 buf).
Proof.
  intro H. unfold FixedLengthInt. rewrite fli_loop; try lia; try assumption.
  change (256 ^ 0) with 1. change (8 - Z.to_nat 0)%nat with 8%nat. lia.
Qed.

(** * Statements used by PropWire.v *)
Lemma C01_lemma pre n rest : 0 <= n < 2 ^ 32 ->
  len (pre ++ enc_compressed n ++ rest) < 2 ^ 63 ->
  MatchParseCompressed (pre ++ enc_compressed n ++ rest) (len pre)
    = Ok (n, len (enc_compressed n), None)
  /\ MatchGetCompressedSize n = len (enc_compressed n).
Proof. intros Hn Hl. split; [now apply compressed_roundtrip|symmetry; apply len_enc_compressed]. Qed.

Lemma C02_lemma data pos :
  all_bytes data -> len data < 2 ^ 63 -> 0 <= pos ->
  match MatchParseCompressed data pos with
  | Ok (v, n, None) => 0 <= v < 2 ^ 32 /\ 1 <= n <= 5 /\ pos + n <= len data
  | Ok (_, _, Some _) =>
      exists b, nth_error data (Z.to_nat pos) = Some b /\ 0xF0 <= b /\ len data < pos + 5
  | Panic =>
      len data <= pos \/
      exists b, nth_error data (Z.to_nat pos) = Some b
        /\ ((0x80 <= b < 0xC0 /\ len data < pos + 2) \/ (0xC0 <= b < 0xE0 /\ len data < pos + 3)
            \/ (0xE0 <= b < 0xF0 /\ len data < pos + 4))
  | NoFuel => False
  end
  /\ (len data <= pos -> MatchParseCompressed data pos = Panic)
  /\ (forall b, nth_error data (Z.to_nat pos) = Some b ->
       (0x80 <= b < 0xC0 /\ len data < pos + 2) \/ (0xC0 <= b < 0xE0 /\ len data < pos + 3)
            \/ (0xE0 <= b < 0xF0 /\ len data < pos + 4) ->
       MatchParseCompressed data pos = Panic).
Proof.
  intros Hb Hl Hp. destruct (compressed_cases data pos Hb Hl Hp) as [Hin Hout].
  destruct (Z.ltb_spec pos (len data)) as [Hlt|Hge].
  - destruct (Hin Hlt) as [b [Hn Hc]]. unfold truncated_form in Hc. split; [|split].
    + destruct Hc as [[Ht ->]|[[H1 [H2 [e ->]]]|[v [n [-> Hc]]]]].
      * right. exists b. split; [exact Hn|]. lia.
      * exists b. split; [exact Hn|]. lia.
      * lia.
    + lia.
    + intros b' Hb' Ht. rewrite Hn in Hb'. injection Hb' as <-.
      destruct Hc as [[_ ->]|[[H1 [H2 _]]|[v [n [_ Hc]]]]]; [reflexivity|lia|lia].
  - rewrite (Hout Hge). split; [left; exact Hge|]. split; reflexivity.
Qed.

Lemma C04_partial_lemma pre n rest : 0 <= n < 2 ^ 64 -> 5 <= len rest -> all_bytes rest ->
  len (pre ++ enc_u64_compressed n ++ rest) < 2 ^ 63 ->
  exists low, 0 <= low < 2 ^ 32 /\
  MatchUllReadComPressed (pre ++ enc_u64_compressed n ++ rest) (len pre)
    = ([], len pre + len (enc_u64_compressed n), Ok (n / 2 ^ 32 * 2 ^ 32 + low)).
Proof.
  intros Hn Hr Hb Hl. eexists. split; [|now apply ull_read].
  match goal with |- 0 <= be_val ?x < _ => assert (Hx : all_bytes x) end.
  { apply all_bytes_firstn, all_bytes_skipn, all_bytes_app. split; [apply be_bytes|assumption]. }
  pose proof (be_val_bound _ Hx) as B. rewrite len_firstn in B; [exact B|].
  rewrite len_enc_compressed. pose proof (size_range (n / 2 ^ 32)).
  rewrite len_skipn; rewrite ?len_app, ?len_be; lia.
Qed.

Lemma ull_short pre n rest : 0 <= n < 2 ^ 64 -> len rest < len (enc_compressed (n / 2 ^ 32)) -> all_bytes rest ->
  len (pre ++ enc_u64_compressed n ++ rest) < 2 ^ 63 ->
  MatchUllReadComPressed (pre ++ enc_u64_compressed n ++ rest) (len pre) = ([], len pre + len (enc_compressed (n / 2 ^ 32)), Panic).
Proof.
  intros Hn Hr Hb Hl. rewrite len_enc_compressed in *. unfold enc_u64_compressed in *. rewrite <- app_assoc in *.
  set (hi := n / 2 ^ 32) in *. set (lo := n mod 2 ^ 32) in *.
  assert (Hhi : 0 <= hi < 2 ^ 32) by (unfold hi; lia).
  pose proof (len_nonneg pre) as Hpn. pose proof (len_nonneg rest) as Hrn. pose proof (size_range hi) as Hs.
  assert (Hb2 : all_bytes (be 4 lo ++ rest)) by (apply all_bytes_app; split; [apply be_bytes|assumption]).
  assert (Ll : len (be 4 lo ++ rest) = 4 + len rest) by (rewrite len_app, len_be; lia).
  unfold MatchUllReadComPressed, pbind, getpos, plift, advance.
  rewrite compressed_roundtrip by assumption.
  assert (Hl' : len pre + MatchGetCompressedSize hi + 4 + len rest < 2 ^ 63)
    by (rewrite !len_app, len_enc_compressed, len_be in Hl; lia).
  cbn [app]. rewrite len_enc_compressed.
  rewrite u64_id by lia. cbn [pret].
  rewrite app_assoc. rewrite slice_from_app_eq by (rewrite len_app, len_enc_compressed; lia).
  destruct (Z_le_gt_dec (MatchGetCompressedSize hi) (len (be 4 lo ++ rest))) as [L|L].
  - rewrite slice_from_ok by lia. rewrite mrf4_spec by (now apply all_bytes_skipn). rewrite len_skipn by lia.
    destruct (4 <=? _) eqn:E4; [lia|]. reflexivity.
  - rewrite slice_from_panic by lia. reflexivity.
Qed.
Lemma C03_exact_lemma pre n rest : 0 <= n < 2 ^ 64 -> all_bytes rest ->
  len (pre ++ enc_u64_compressed n ++ rest) < 2 ^ 63 ->
  let high := len (enc_compressed (n / 2 ^ 32)) in
  if high <=? len rest
  then exists v, MatchUllReadComPressed (pre ++ enc_u64_compressed n ++ rest) (len pre) = ([], len pre + high + 4, Ok v)
  else MatchUllReadComPressed (pre ++ enc_u64_compressed n ++ rest) (len pre) = ([], len pre + high, Panic).
Proof.
  intros Hn Hb Hl high. unfold high. destruct (Z.leb_spec (len (enc_compressed (n / 2 ^ 32))) (len rest)).
  - eexists. rewrite ull_read_room by assumption. rewrite <- Z.add_assoc. f_equal. unfold enc_u64_compressed. rewrite len_app, len_be. reflexivity.
  - now apply ull_short.
Qed.
Lemma C03_lemma pre n rest : 0 <= n < 2 ^ 64 -> 5 <= len rest -> all_bytes rest ->
  len (pre ++ enc_u64_compressed n ++ rest) < 2 ^ 63 ->
  exists v, MatchUllReadComPressed (pre ++ enc_u64_compressed n ++ rest) (len pre)
    = ([], len pre + len (enc_u64_compressed n), Ok v).
Proof.
  intros Hn Hr Hb Hl. eexists. now apply ull_read.
Qed.

Lemma C07_lemma : forall n rest,
  (0 <= n < 256 ^ 1 -> MatchReadFrom1 (be 1 n ++ rest) = Ok n) /\
  (0 <= n < 256 ^ 2 -> MatchReadFrom2 (be 2 n ++ rest) = Ok n) /\
  (0 <= n < 256 ^ 3 -> MatchReadFrom3 (be 3 n ++ rest) = Ok n) /\
  (0 <= n < 256 ^ 4 -> MatchReadFrom4 (be 4 n ++ rest) = Ok n) /\
  (0 <= n < 256 ^ 7 -> MatchReadFrom7 (be 7 n ++ rest) = Ok n) /\
  (0 <= n < 256 ^ 8 -> MatchReadFrom8 (be 8 n ++ rest) = Ok n).
Proof.
  intros n rest. repeat split; intro H.
  - now apply mrf1_be.
  - now apply mrf2_be.
  - now apply mrf3_be.
  - now apply mrf4_be.
  - now apply mrf7_be.
  - now apply mrf8_be.
Qed.
Lemma C07_short_lemma : forall d,
  (len d < 1 -> MatchReadFrom1 d = Panic) /\ (len d < 2 -> MatchReadFrom2 d = Panic) /\
  (len d < 3 -> MatchReadFrom3 d = Panic) /\ (len d < 4 -> MatchReadFrom4 d = Panic) /\
  (len d < 7 -> MatchReadFrom7 d = Panic) /\ (len d < 8 -> MatchReadFrom8 d = Panic).
Proof.
  intro d. unfold len. repeat split; intro H.
  - apply mrf1_short; lia.
  - apply mrf2_short; lia.
  - apply mrf3_short; lia.
  - apply mrf4_short; lia.
  - apply mrf7_short; lia.
  - apply mrf8_short; lia.
Qed.

Lemma C08_unsigned_lemma : forall n rest,
  (0 <= n < 256 ^ 1 -> ParseBinaryUint8 (le 1 n ++ rest) = Ok n) /\
  (0 <= n < 256 ^ 2 -> ParseBinaryUint16 (le 2 n ++ rest) = Ok n) /\
  (0 <= n < 256 ^ 3 -> ParseBinaryUint24 (le 3 n ++ rest) = Ok n) /\
  (0 <= n < 256 ^ 4 -> ParseBinaryUint32 (le 4 n ++ rest) = Ok n) /\
  (0 <= n < 256 ^ 8 -> ParseBinaryUint64 (le 8 n ++ rest) = Ok n).
Proof.
  intros n rest. repeat split; intro H.
  - cbn [le app]. unfold ParseBinaryUint8. rewrite index_0. f_equal. apply Z.mod_small. exact H.
  - unfold ParseBinaryUint16. rewrite le2_app by (apply le_bytes || apply le_length). f_equal. now apply le_val_le_small.
  - rewrite le3_app by (apply le_bytes || apply le_length). f_equal. now apply le_val_le_small.
  - unfold ParseBinaryUint32. rewrite le4_app by (apply le_bytes || apply le_length). f_equal. now apply le_val_le_small.
  - unfold ParseBinaryUint64. rewrite le8_app by (apply le_bytes || apply le_length). f_equal. now apply le_val_le_small.
Qed.
Lemma C08_signed_lemma : forall v rest,
  (- 2 ^ 7 <= v < 2 ^ 7 -> ParseBinaryInt8 (le 1 v ++ rest) = Ok v) /\
  (- 2 ^ 15 <= v < 2 ^ 15 -> ParseBinaryInt16 (le 2 v ++ rest) = Ok v) /\
  (- 2 ^ 23 <= v < 2 ^ 23 -> ParseBinaryInt24 (le 3 v ++ rest) = Ok v) /\
  (- 2 ^ 31 <= v < 2 ^ 31 -> ParseBinaryInt32 (le 4 v ++ rest) = Ok v) /\
  (- 2 ^ 63 <= v < 2 ^ 63 -> ParseBinaryInt64 (le 8 v ++ rest) = Ok v).
Proof.
  intros v rest. repeat split; intro H.
  - cbn [le app]. unfold ParseBinaryInt8. rewrite index_0. cbn [bind]. f_equal. apply (to_signed_mod 8); [lia|exact H].
  - unfold ParseBinaryInt16. rewrite le2_app by (apply le_bytes || apply le_length). cbn [bind]. f_equal.
    rewrite le_val_le. apply (to_signed_mod 16); [lia|exact H].
  - now apply int24_spec.
  - unfold ParseBinaryInt32. rewrite le4_app by (apply le_bytes || apply le_length). cbn [bind]. f_equal.
    rewrite le_val_le. apply (to_signed_mod 32); [lia|exact H].
  - unfold ParseBinaryInt64. rewrite le8_app by (apply le_bytes || apply le_length). cbn [bind]. f_equal.
    rewrite le_val_le. apply (to_signed_mod 64); [lia|exact H].
Qed.
