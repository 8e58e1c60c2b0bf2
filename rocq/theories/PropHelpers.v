(** Properties C98 and C99: readers of utils.go that no command reaches. *)
From Coq Require Import ZifyBool.
From Verif Require Import GoBase Utils SpecInno SpecText PBase PWire PValue.
Local Open Scope list_scope.

(** * C98: the status of a record: the low three bits of the third byte before
    its origin; a crash if there is no such byte. *)
Theorem C98_status : forall d o v, all_bytes d -> len d < 2 ^ 63 -> 0 <= o < 2 ^ 63 ->
  (RecGetStatus d o = Ok v <-> 3 <= o /\ exists x, nth_error d (Z.to_nat (o - 3)) = Some x /\ v = x mod 8).
Proof.
  intros d o v Hb Hd Ho. unfold RecGetStatus, RecGetBitField1. pose proof (len_nonneg d).
  destruct (Z_lt_le_dec o 3) as [L|L].
  - rewrite slice_from_panic; [split; [discriminate|lia]|]. right. unfold u64.
    replace ((o - 3) mod 2 ^ 64) with (o - 3 + 2 ^ 64); [lia|]. rewrite <- (Z_mod_plus_full (o - 3) 1 (2 ^ 64)). rewrite Z.mod_small; lia.
  - rewrite u64_id by lia. destruct (nth_error d (Z.to_nat (o - 3))) as [x|] eqn:E.
    + assert (B : (Z.to_nat (o - 3) < List.length d)%nat) by (apply nth_error_Some; congruence).
      rewrite slice_from_ok by (unfold len; lia). cbn [bind]. unfold MatchReadFrom1.
      rewrite (index_some _ 0 x); [|lia|change (Z.to_nat 0) with 0%nat; rewrite <- E; rewrite nth_error_skipn; f_equal; lia]. cbn [bind].
      rewrite Z.shiftr_0_r. change 7 with (Z.ones 3). rewrite Z.land_ones by lia. change (2 ^ 3) with 8. split.
      * intro X. split; [exact L|]. exists x. split; [reflexivity|congruence].
      * intros [_ [y [Hy ->]]]. congruence.
    + apply nth_error_None in E. split; [|intros [_ [y [Hy _]]]; discriminate Hy].
      destruct (Z_lt_le_dec (len d) (o - 3)) as [G|G]; [rewrite slice_from_panic by lia; discriminate|].
      rewrite slice_from_ok by lia. cbn [bind]. unfold MatchReadFrom1. rewrite index_panic; [discriminate|]. right. rewrite len_skipn by lia. unfold len in *. lia.
Qed.
Print Assumptions C98_status.
Example C98_case : RecGetStatus [9; 8; 0x2B; 7; 1; 0] 5 = Ok 3 /\ RecGetStatus [9; 8] 2 = Panic.
Proof. split; reflexivity. Qed.

(** * C99 *)
(** MySQL's types of fixed storage size: the integers, FLOAT, DOUBLE, TIMESTAMP,
    DATE, TIME, DATETIME, YEAR, BIT, DECIMAL, ENUM, SET; and of variable size:
    VARCHAR, the BLOBs, VAR_STRING. *)
Definition fixed_size_types : list Z := [1; 2; 3; 4; 5; 7; 8; 9; 10; 11; 12; 13; 16; 246; 247; 248].
Definition variable_size_types : list Z := [15; 249; 250; 251; 252; 253].
(** False of INT and DATETIME, and of VAR_STRING. *)
Theorem C99_exact_refuted : forall ty n, 0 < n ->
  (In ty fixed_size_types -> (GetFixedLengthByMySQLType ty n = n <-> ty <> 3 /\ ty <> 12))
  /\ (In ty variable_size_types -> (GetFixedLengthByMySQLType ty n = 0 <-> ty <> 253)).
Proof.
  intros ty n Hn. split; intro H; unfold fixed_size_types, variable_size_types in H; cbn [In] in H;
    repeat (destruct H as [H|H]; [subst ty; cbv [GetFixedLengthByMySQLType MYSQL_TYPE_LONG MYSQL_TYPE_DATETIME MYSQL_TYPE_VARCHAR MYSQL_TYPE_TINY_BLOB MYSQL_TYPE_MEDIUM_BLOB MYSQL_TYPE_LONG_BLOB MYSQL_TYPE_BLOB]; cbn [Z.eqb Pos.eqb orb]; lia|]); contradiction.
Qed.
Print Assumptions C99_exact_refuted.
Example C99_case : GetFixedLengthByMySQLType 3 4 = 0 /\ GetFixedLengthByMySQLType 253 80 = 80.
Proof. split; reflexivity. Qed.
(** Full statement: the declared length for every type of fixed size and 0 for
    every type of variable size.  Missing (false): INT, DATETIME, VAR_STRING. *)
Theorem C99_fixed_length_partial : forall ty n,
  (In ty fixed_size_types -> ty <> 3 -> ty <> 12 -> GetFixedLengthByMySQLType ty n = n)
  /\ (In ty variable_size_types -> ty <> 253 -> GetFixedLengthByMySQLType ty n = 0).
Proof.
  intros ty n. split; intro H; unfold fixed_size_types, variable_size_types in H; cbn [In] in H;
    repeat (destruct H as [H|H]; [subst ty; intros; try contradiction; reflexivity|]); contradiction.
Qed.
Print Assumptions C99_fixed_length_partial.
Example C99_partial_case : In 8 fixed_size_types /\ GetFixedLengthByMySQLType 8 8 = 8 /\ In 252 variable_size_types /\ GetFixedLengthByMySQLType 252 10 = 0.
Proof. cbn. tauto. Qed.

(** C98: UtAlignOffset keeps the low bits of the first byte.  (MySQL's
    ut_align_offset does so to an address; the function here is given bytes.) *)
Theorem C98_low_bits : forall b k, all_bytes b -> 0 <= k <= 8 ->
  match b with
  | [] => UtAlignOffset b (2 ^ k) = Panic
  | x :: _ => UtAlignOffset b (2 ^ k) = Ok (x mod 2 ^ k)
  end.
Proof.
  intros [|x b] k Hb Hk; [reflexivity|]. unfold UtAlignOffset. rewrite index_0. cbn [bind].
  assert (P : 1 <= 2 ^ k <= 2 ^ 8) by (split; [apply (Z.pow_le_mono_r 2 0 k); lia|apply Z.pow_le_mono_r; lia]).
  rewrite u64_id by (change (2 ^ 8) with 256 in P; lia). replace (2 ^ k - 1) with (Z.ones k) by (rewrite Z.ones_equiv; lia). now rewrite Z.land_ones by lia.
Qed.
Print Assumptions C98_low_bits.
Example C98_low_bits_case : UtAlignOffset [5; 1] 4 = Ok 1 /\ UtAlignOffset [6; 1] 4 = Ok 2.
Proof. split; reflexivity. Qed.
