(** Properties C01-C08: integers on disk.  Theorems only; proofs in PWire.v. *)
From Verif Require Import GoBase Utils SpecInno PBase PWire.
Local Open Scope list_scope.

(** C01 *)
Theorem C01_compressed_roundtrip : forall pre n rest,
  0 <= n < 2 ^ 32 -> len (pre ++ enc_compressed n ++ rest) < 2 ^ 63 ->
  MatchParseCompressed (pre ++ enc_compressed n ++ rest) (len pre)
    = Ok (n, len (enc_compressed n), None)
  /\ MatchGetCompressedSize n = len (enc_compressed n).
Proof. exact C01_lemma. Qed.
Print Assumptions C01_compressed_roundtrip.
Example C01_case : MatchParseCompressed ([7; 7] ++ enc_compressed 2097151 ++ [9]) 2 = Ok (2097151, 3, None).
Proof. reflexivity. Qed.

(** C02 *)
Theorem C02_compressed_reader_total : forall data pos,
  all_bytes data -> len data < 2 ^ 63 -> 0 <= pos ->
  match MatchParseCompressed data pos with
  | Ok (v, n, None) => 0 <= v < 2 ^ 32 /\ 1 <= n <= 5 /\ pos + n <= len data
  | Ok (_, _, Some _) =>
      exists b, nth_error data (Z.to_nat pos) = Some b /\ 0xF0 <= b /\ len data < pos + 5
  | Panic =>
      len data <= pos \/
      exists b, nth_error data (Z.to_nat pos) = Some b
        /\ ((0x80 <= b < 0xC0 /\ len data < pos + 2) \/ (0xC0 <= b < 0xE0 /\ len data < pos + 3)
            \/ (0xE0 <= b < 0xF0 /\ len data < pos + 4))
  | NoFuel => False
  end
  /\ (len data <= pos -> MatchParseCompressed data pos = Panic)
  /\ (forall b, nth_error data (Z.to_nat pos) = Some b ->
       (0x80 <= b < 0xC0 /\ len data < pos + 2) \/ (0xC0 <= b < 0xE0 /\ len data < pos + 3)
            \/ (0xE0 <= b < 0xF0 /\ len data < pos + 4) ->
       MatchParseCompressed data pos = Panic).
Proof. exact C02_lemma. Qed.
Print Assumptions C02_compressed_reader_total.
Example C02_case :
  MatchParseCompressed [1; 0xF0; 2; 3] 1 = Ok (0, 5, Some err_short_compressed)
  /\ MatchParseCompressed [1; 0xC0; 2] 1 = Panic /\ MatchParseCompressed [1; 0x81; 2] 1 = Ok (258, 2, None).
Proof. repeat split; reflexivity. Qed.

(** C03 *)
Theorem C03_ull_cursor : forall pre n rest,
  0 <= n < 2 ^ 64 -> 5 <= len rest -> all_bytes rest ->
  len (pre ++ enc_u64_compressed n ++ rest) < 2 ^ 63 ->
  exists v, MatchUllReadComPressed (pre ++ enc_u64_compressed n ++ rest) (len pre)
    = ([], len pre + len (enc_u64_compressed n), Ok v).
Proof. exact C03_lemma. Qed.
Print Assumptions C03_ull_cursor.
(** Exactly how many bytes must follow: as many as the high word takes.  With
    fewer it crashes, in the middle of the field. *)
Theorem C03_ull_exact : forall pre n rest,
  0 <= n < 2 ^ 64 -> all_bytes rest -> len (pre ++ enc_u64_compressed n ++ rest) < 2 ^ 63 ->
  let high := len (enc_compressed (n / 2 ^ 32)) in
  if high <=? len rest
  then exists v, MatchUllReadComPressed (pre ++ enc_u64_compressed n ++ rest) (len pre) = ([], len pre + high + 4, Ok v)
  else MatchUllReadComPressed (pre ++ enc_u64_compressed n ++ rest) (len pre) = ([], len pre + high, Panic).
Proof. exact C03_exact_lemma. Qed.
Print Assumptions C03_ull_exact.
Example C03_case2 : MatchUllReadComPressed (enc_u64_compressed (300 * 2 ^ 32 + 5) ++ [7]) 0 = ([], 2, Panic)
  /\ exists v, MatchUllReadComPressed (enc_u64_compressed (300 * 2 ^ 32 + 5) ++ [7; 7]) 0 = ([], 6, Ok v).
Proof. split; [reflexivity|eexists; reflexivity]. Qed.
Example C03_case :
  MatchUllReadComPressed ([9] ++ enc_u64_compressed 0x123456789A ++ [1; 2; 3; 4; 5]) 1
  = ([], 6, Ok 0x1256789A01).
Proof. reflexivity. Qed.

(** C04: false; the reader takes the low word one field length too late. *)
Theorem C04_ull_value_refuted : exists pre n rest,
  0 <= n < 2 ^ 64 /\ 5 <= len rest /\ all_bytes rest /\
  len (pre ++ enc_u64_compressed n ++ rest) < 2 ^ 63 /\
  exists o p v, MatchUllReadComPressed (pre ++ enc_u64_compressed n ++ rest) (len pre) = (o, p, Ok v)
                /\ v <> n.
Proof.
  exists [9], 0x123456789A, [1; 2; 3; 4; 5].
  split; [lia|]. split; [unfold len; cbn; lia|]. split; [solve_bytes|].
  split; [unfold len; cbn; lia|]. eexists _, _, _. split; [vm_compute; reflexivity|]. vm_compute; congruence.
Qed.
Print Assumptions C04_ull_value_refuted.
(** Full statement: for every n the value returned is n.  Proved: the upper
    half of the value is right; missing (false): the lower half. *)
Theorem C04_ull_value_partial : forall pre n rest,
  0 <= n < 2 ^ 64 -> 5 <= len rest -> all_bytes rest ->
  len (pre ++ enc_u64_compressed n ++ rest) < 2 ^ 63 ->
  exists low, 0 <= low < 2 ^ 32 /\
  MatchUllReadComPressed (pre ++ enc_u64_compressed n ++ rest) (len pre)
    = ([], len pre + len (enc_u64_compressed n), Ok (n / 2 ^ 32 * 2 ^ 32 + low)).
Proof. exact C04_partial_lemma. Qed.
Print Assumptions C04_ull_value_partial.
(** The word it does return: the four bytes that start as far into the rest of
    the buffer as the high word is long. *)
Theorem C04_ull_value_is_shifted_partial : forall pre n rest,
  0 <= n < 2 ^ 64 -> 5 <= len rest -> all_bytes rest ->
  len (pre ++ enc_u64_compressed n ++ rest) < 2 ^ 63 ->
  MatchUllReadComPressed (pre ++ enc_u64_compressed n ++ rest) (len pre)
    = ([], len pre + len (enc_u64_compressed n), Ok (n / 2 ^ 32 * 2 ^ 32 +
        be_val (firstn 4 (skipn (Z.to_nat (len (enc_compressed (n / 2 ^ 32))))
                         (be 4 (n mod 2 ^ 32) ++ rest))))).
Proof. exact ull_read. Qed.
Print Assumptions C04_ull_value_is_shifted_partial.
Theorem C04_exact_refuted : forall pre n rest,
  0 <= n < 2 ^ 64 -> 5 <= len rest -> all_bytes rest ->
  len (pre ++ enc_u64_compressed n ++ rest) < 2 ^ 63 ->
  (MatchUllReadComPressed (pre ++ enc_u64_compressed n ++ rest) (len pre) = ([], len pre + len (enc_u64_compressed n), Ok n)
   <-> firstn 4 (skipn (List.length (enc_compressed (n / 2 ^ 32))) (be 4 (n mod 2 ^ 32) ++ rest)) = be 4 (n mod 2 ^ 32)).
Proof.
  intros pre n rest Hn Hr Hb Hl. rewrite C04_ull_value_is_shifted_partial by assumption. replace (Z.to_nat (len (enc_compressed (n / 2 ^ 32)))) with (List.length (enc_compressed (n / 2 ^ 32))) by (unfold len; lia).
  set (x := firstn 4 _). assert (HL : 0 <= n mod 2 ^ 32 < 256 ^ Z.of_nat 4) by (change (256 ^ Z.of_nat 4) with (2 ^ 32); apply Z.mod_pos_bound; lia).
  assert (Hx : all_bytes x /\ List.length x = 4%nat).
  { assert (A : all_bytes (be 4 (n mod 2 ^ 32) ++ rest)) by (apply all_bytes_app; split; [apply be_bytes|exact Hb]).
    assert (W : (List.length (enc_compressed (n / 2 ^ 32)) <= 5)%nat) by (unfold enc_compressed; repeat match goal with |- context [if ?c then _ else _] => destruct c end; cbn; lia).
    split.
    - apply Forall_forall. intros y Hy. apply (proj1 (Forall_forall _ _) A). unfold x in Hy. rewrite <- (firstn_skipn (List.length (enc_compressed (n / 2 ^ 32))) (be 4 (n mod 2 ^ 32) ++ rest)).
      apply in_app_iff. right. rewrite <- (firstn_skipn 4). apply in_app_iff. now left.
    - unfold x. rewrite firstn_length, skipn_length, app_length, be_length. unfold len in Hr. lia. }
  destruct Hx as [Hx Lx]. split.
  - intro E. assert (E' : be_val x = n mod 2 ^ 32) by (assert (n / 2 ^ 32 * 2 ^ 32 + be_val x = n) by congruence; lia).
    rewrite <- E', <- Lx. symmetry. clear - Hx. induction x as [|c x IH] using rev_ind; [reflexivity|].
    apply all_bytes_app in Hx as [Hx Hc]. inversion Hc as [|? ? Hb _]; subst. unfold is_byte in Hb. rewrite app_length, Nat.add_1_r, be_val_snoc. cbn [be].
    replace ((be_val x * 256 + c) / 256) with (be_val x) by lia. rewrite IH by exact Hx. f_equal. f_equal. lia.
  - intros ->. rewrite be_val_be_small by exact HL. do 2 f_equal. lia.
Qed.
Print Assumptions C04_exact_refuted.
(** A number that comes out right by chance, and one that does not *)
Example C04_case : MatchUllReadComPressed ([9] ++ enc_u64_compressed 0x107070707 ++ [7; 2; 3; 4; 5]) 1 = ([], 6, Ok 0x107070707)
  /\ MatchUllReadComPressed ([9] ++ enc_u64_compressed 0x107070707 ++ [8; 2; 3; 4; 5]) 1 = ([], 6, Ok 0x107070708)
  /\ all_bytes [7; 2; 3; 4; 5] /\ 5 <= len [7; 2; 3; 4; 5].
Proof. split; [reflexivity|]. split; [reflexivity|]. split; [solve_bytes|unfold len; cbn; lia]. Qed.

(** C05 *)
Theorem C05_much_compressed_value : forall n rest,
  0 <= n < 2 ^ 32 -> len (enc_much_compressed n ++ rest) < 2 ^ 63 ->
  MatchUllReadMuchCompressed (enc_much_compressed n ++ rest) = Ok (n, None)
  /\ MachUllGetMuchCompressedSize n = len (enc_much_compressed n).
Proof.
  intros n rest Hn Hl. split; [|exact (much_size_small n Hn)].
  apply much_read_small; [exact Hn|]. unfold enc_much_compressed in Hl.
  destruct (Z.ltb_spec n (2 ^ 32)); [exact Hl|lia].
Qed.
Print Assumptions C05_much_compressed_value.
Example C05_case : MatchUllReadMuchCompressed (enc_much_compressed 70000 ++ [1; 2]) = Ok (70000, None).
Proof. reflexivity. Qed.

(** C06: false; the high word is dropped and the length is one short. *)
Theorem C06_much_compressed_large_refuted : exists n rest,
  2 ^ 32 <= n < 2 ^ 64 /\ len (enc_much_compressed n ++ rest) < 2 ^ 63 /\
  MatchUllReadMuchCompressed (enc_much_compressed n ++ rest) <> Ok (n, None) /\
  MachUllGetMuchCompressedSize n <> len (enc_much_compressed n).
Proof.
  exists (2 ^ 32 + 5), [1; 2].
  split; [lia|]. split; [unfold len; cbn; lia|]. split; [vm_compute; congruence|vm_compute; congruence].
Qed.
Print Assumptions C06_much_compressed_large_refuted.
(** Full statement: the value is n and the size its encoded length.  Proved:
    what comes back is exactly the low word, and the size exactly one less;
    missing (false): the high word. *)
Theorem C06_much_compressed_large_partial : forall n rest,
  2 ^ 32 <= n < 2 ^ 64 -> len (enc_much_compressed n ++ rest) < 2 ^ 63 ->
  MatchUllReadMuchCompressed (enc_much_compressed n ++ rest) = Ok (n mod 2 ^ 32, None)
  /\ MachUllGetMuchCompressedSize n = len (enc_much_compressed n) - 1.
Proof. intros n rest Hn Hl. split; [exact (much_read_large n rest Hn Hl)|exact (much_size_large n Hn)]. Qed.
Print Assumptions C06_much_compressed_large_partial.
(** False for every such number. *)
Theorem C06_exact_refuted : forall n rest,
  2 ^ 32 <= n < 2 ^ 64 -> len (enc_much_compressed n ++ rest) < 2 ^ 63 ->
  MatchUllReadMuchCompressed (enc_much_compressed n ++ rest) <> Ok (n, None)
  /\ MachUllGetMuchCompressedSize n <> len (enc_much_compressed n).
Proof.
  intros n rest Hn Hl. destruct (C06_much_compressed_large_partial n rest Hn Hl) as [-> ->]. split; [|lia].
  intro E. assert (E' : n mod 2 ^ 32 = n) by congruence. pose proof (Z.mod_pos_bound n (2 ^ 32)). lia.
Qed.
Print Assumptions C06_exact_refuted.
Example C06_case : MatchUllReadMuchCompressed (enc_much_compressed (3 * 2 ^ 32 + 70000) ++ [1; 2]) = Ok (70000, None)
  /\ MachUllGetMuchCompressedSize (3 * 2 ^ 32 + 70000) = 4 /\ len (enc_much_compressed (3 * 2 ^ 32 + 70000)) = 5.
Proof. repeat split; reflexivity. Qed.

(** C07 *)
Theorem C07_big_endian_exact : forall n rest,
  (0 <= n < 256 ^ 1 -> MatchReadFrom1 (be 1 n ++ rest) = Ok n) /\
  (0 <= n < 256 ^ 2 -> MatchReadFrom2 (be 2 n ++ rest) = Ok n) /\
  (0 <= n < 256 ^ 3 -> MatchReadFrom3 (be 3 n ++ rest) = Ok n) /\
  (0 <= n < 256 ^ 4 -> MatchReadFrom4 (be 4 n ++ rest) = Ok n) /\
  (0 <= n < 256 ^ 7 -> MatchReadFrom7 (be 7 n ++ rest) = Ok n) /\
  (0 <= n < 256 ^ 8 -> MatchReadFrom8 (be 8 n ++ rest) = Ok n).
Proof. exact C07_lemma. Qed.
Print Assumptions C07_big_endian_exact.
Theorem C07_big_endian_short : forall d,
  (len d < 1 -> MatchReadFrom1 d = Panic) /\ (len d < 2 -> MatchReadFrom2 d = Panic) /\
  (len d < 3 -> MatchReadFrom3 d = Panic) /\ (len d < 4 -> MatchReadFrom4 d = Panic) /\
  (len d < 7 -> MatchReadFrom7 d = Panic) /\ (len d < 8 -> MatchReadFrom8 d = Panic).
Proof. exact C07_short_lemma. Qed.
Print Assumptions C07_big_endian_short.
Example C07_case : MatchReadFrom7 (be 7 0x01020304050607 ++ [9]) = Ok 0x01020304050607.
Proof. reflexivity. Qed.

(** C08 *)
Theorem C08_little_endian_unsigned : forall n rest,
  (0 <= n < 256 ^ 1 -> ParseBinaryUint8 (le 1 n ++ rest) = Ok n) /\
  (0 <= n < 256 ^ 2 -> ParseBinaryUint16 (le 2 n ++ rest) = Ok n) /\
  (0 <= n < 256 ^ 3 -> ParseBinaryUint24 (le 3 n ++ rest) = Ok n) /\
  (0 <= n < 256 ^ 4 -> ParseBinaryUint32 (le 4 n ++ rest) = Ok n) /\
  (0 <= n < 256 ^ 8 -> ParseBinaryUint64 (le 8 n ++ rest) = Ok n).
Proof. exact C08_unsigned_lemma. Qed.
Print Assumptions C08_little_endian_unsigned.
Theorem C08_little_endian_signed : forall v rest,
  (- 2 ^ 7 <= v < 2 ^ 7 -> ParseBinaryInt8 (le 1 v ++ rest) = Ok v) /\
  (- 2 ^ 15 <= v < 2 ^ 15 -> ParseBinaryInt16 (le 2 v ++ rest) = Ok v) /\
  (- 2 ^ 23 <= v < 2 ^ 23 -> ParseBinaryInt24 (le 3 v ++ rest) = Ok v) /\
  (- 2 ^ 31 <= v < 2 ^ 31 -> ParseBinaryInt32 (le 4 v ++ rest) = Ok v) /\
  (- 2 ^ 63 <= v < 2 ^ 63 -> ParseBinaryInt64 (le 8 v ++ rest) = Ok v).
Proof. exact C08_signed_lemma. Qed.
Print Assumptions C08_little_endian_signed.
Theorem C08_little_endian_float : forall bits rest,
  (0 <= bits < 2 ^ 32 -> ParseBinaryFloat32 (store_float bits ++ rest) = Ok bits) /\
  (0 <= bits < 2 ^ 64 -> ParseBinaryFloat64 (store_double bits ++ rest) = Ok bits).
Proof. intros bits rest. destruct (C08_unsigned_lemma bits rest) as [_ [_ [_ [H4 H8]]]]. split; intro H; [now apply H4|now apply H8]. Qed.
Print Assumptions C08_little_endian_float.
Theorem C08_fixed_length_int : forall buf,
  all_bytes buf -> FixedLengthInt buf = le_val (firstn 8 buf).
Proof. exact fli_spec. Qed.
Print Assumptions C08_fixed_length_int.
Example C08_case : ParseBinaryInt24 (le 3 (-2)) = Ok (-2) /\ FixedLengthInt [1; 2; 0; 0; 0; 0; 0; 0; 7] = 513.
Proof. split; reflexivity. Qed.
