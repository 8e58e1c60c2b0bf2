(** Proofs about record decoding. *)
From Verif Require Import GoBase Utils Ibdata SpecInno SpecText SpecSql SpecRecord SpecRow PBase PWire.
Local Open Scope list_scope.


(** * Flags *)
Lemma flags_bound l : 0 <= flags_number l < 2 ^ len l.
Proof.
  induction l as [|b l IH]; [cbn; lia|]. cbn [flags_number]. rewrite len_cons, Z.pow_add_r by (try apply len_nonneg; lia).
  destruct b; lia.
Qed.
Lemma flags_bit l : forall k b, nth_error l k = Some b -> Z.testbit (flags_number l) (Z.of_nat k) = b.
Proof.
  induction l as [|c l IH]; intros k b H; [now destruct k|]. cbn [flags_number].
  destruct k as [|k].
  - injection H as <-. change (Z.of_nat 0) with 0. rewrite Z.bit0_odd. destruct c; rewrite Z.odd_add_mul_2; reflexivity.
  - cbn [nth_error] in H. apply IH in H. rewrite Nat2Z.inj_succ, <- H.
    destruct c.
    + rewrite Z.add_comm. apply Z.testbit_odd_succ. lia.
    + rewrite Z.add_0_l. apply Z.testbit_even_succ. lia.
Qed.
Lemma flags_len ls : forall fs, List.length ls = List.length fs -> len (null_flags ls fs) = nullable_count ls.
Proof.
  unfold nullable_count. induction ls as [|l ls IH]; intros [|f fs] H; try discriminate; [reflexivity|].
  injection H as H. specialize (IH fs H). cbn [null_flags filter]. rewrite len_app, IH. unfold zlen.
  destruct (l_nullable l); cbn [List.length]; unfold len; cbn [List.length]; lia.
Qed.
Lemma nullable_nonneg ls : 0 <= nullable_count ls.
Proof. unfold nullable_count, zlen. lia. Qed.

(** byte j from the end of a big-endian image *)
Lemma be_nth k : forall n j, (j < k)%nat -> nth_error (be k n) (k - 1 - j) = Some (n / 256 ^ Z.of_nat j mod 256).
Proof.
  induction k as [|k IH]; intros n j H; [lia|]. cbn [be].
  destruct j as [|j].
  - rewrite nth_error_app2 by (rewrite be_length; lia). rewrite be_length.
    replace (S k - 1 - 0 - k)%nat with 0%nat by lia. change (256 ^ Z.of_nat 0) with 1. rewrite Z.div_1_r. reflexivity.
  - rewrite nth_error_app1 by (rewrite be_length; lia).
    replace (S k - 1 - S j)%nat with (k - 1 - j)%nat by lia. rewrite IH by lia.
    rewrite pow256_S, Z.div_div by (try apply Z.pow_pos_nonneg; lia). reflexivity.
Qed.
Lemma bitmap_bit V j r : 0 <= V -> 0 <= j -> 0 <= r < 8 ->
  negb (Z.land (V / 256 ^ j mod 256) (2 ^ r) =? 0) = Z.testbit V (8 * j + r).
Proof.
  intros HV Hj Hr. rewrite land_pow2 by lia. replace 256 with (2 ^ 8) at 2 by reflexivity.
  rewrite Z.mod_pow2_bits_low by lia. replace (256 ^ j) with (2 ^ (8 * j)) by (rewrite Z.pow_mul_r by lia; reflexivity).
  rewrite Z.div_pow2_bits by lia. replace (r + 8 * j) with (8 * j + r) by lia.
  destruct (Z.testbit V (8 * j + r)); [|reflexivity].
  destruct (Z.eqb_spec (2 ^ r) 0) as [E|]; [|reflexivity]. pose proof (Z.pow_pos_nonneg 2 r). lia.
Qed.

(** * The offsets array *)
Definition entry (from : Z) (f : stored) : Z :=
  match f with
  | FNull => Z.lor from (2 ^ 31)
  | FBytes b => from + len b
  | FExtern b => Z.lor (from + len b) (2 ^ 30)
  end.
Fixpoint entries (from : Z) (fs : list stored) : list Z :=
  match fs with
  | [] => []
  | f :: fs' => entry from f :: entries (from + len (content f)) fs'
  end.
Lemma entries_len from fs : List.length (entries from fs) = List.length fs.
Proof. revert from; induction fs as [|f fs IH]; intro from; cbn; [reflexivity|]. now rewrite IH. Qed.

(** the null pointer and mask after k nullable columns *)
Definition nstate (N0 k : Z) (nulls mask : Z) : Prop :=
  (nulls = N0 - k / 8 /\ mask = 2 ^ (k mod 8)) \/ (0 < k /\ k mod 8 = 0 /\ nulls = N0 - (k / 8 - 1) /\ mask = 256).
Lemma describes_fixed c l : describes c l -> match l_fixed l with Some n => col_fixed c = n /\ n <> 0 | None => col_fixed c = 0 end.
Proof.
  intros [_ H]. unfold col_fixed, GetFixedLength, DATA_BLOB, DATA_VARMYSQL, DATA_MYSQL, DATA_BINARY. cbn [In] in H.
  destruct (l_fixed l) as [n|].
  - destruct H as [H1 [H2 H3]].
    destruct (Z.eqb_spec (c_type c) 5), (Z.eqb_spec (c_type c) 12), (Z.eqb_spec (c_type c) 13), (Z.eqb_spec (c_type c) 4); subst; intuition congruence.
  - destruct H as [H _].
    destruct (Z.eqb_spec (c_type c) 5), (Z.eqb_spec (c_type c) 12), (Z.eqb_spec (c_type c) 13), (Z.eqb_spec (c_type c) 4); intuition congruence.
Qed.
Lemma describes_big c l : describes c l -> l_fixed l = None ->
  ((c_len c >? 255) || (c_type c =? DATA_BLOB))%bool = l_big l.
Proof.
  intros [_ H] E. rewrite E in H. destruct H as [_ H]. unfold DATA_BLOB.
  destruct (l_big l).
  - destruct (proj1 H eq_refl); [|lia]. lia.
  - apply not_true_iff_false. intro X. enough (false = true) by discriminate. apply H. lia.
Qed.

Lemma land_16 x : 0 <= x < 65536 -> Z.land x 65535 = x.
Proof. intro H. change 65535 with (2 ^ 16 - 1). rewrite land_ones by lia. apply Z.mod_small. exact H. Qed.
Lemma two_bytes h lo : 0 <= h < 256 -> 0 <= lo < 256 -> Z.lor (Z.shiftl h 8) lo = h * 256 + lo.
Proof. intros. rewrite lor_shiftl by (change (2 ^ 8) with 256; lia). reflexivity. Qed.

Lemma bit7 x : 0 <= x < 256 -> negb (Z.land x 128 =? 0) = (128 <=? x).
Proof.
  intro H. change 128 with (2 ^ 7) at 1. rewrite land_pow2, testbit_high by lia. change (2 ^ 7) with 128.
  destruct (128 <=? x); reflexivity.
Qed.

(** one nullable column *)
Lemma null_step d N0 V k nulls mask : 0 <= V -> nstate N0 k nulls mask -> 0 <= k ->
  index d (N0 - k / 8) = Ok (V / 256 ^ (k / 8) mod 256) ->
  exists nulls' mask',
  (nm <- (if mask mod 256 =? 0 then _ <- slice_from d (nulls - 1) ;; Ok (nulls - 1, 1) else Ok (nulls, mask)) ;;
   let '(nulls, nullMask) := nm in
   b <- index d nulls ;;
   if negb (Z.land b (nullMask mod 256) =? 0)
   then Ok (true, nulls, nullMask * 2)
   else Ok (false, nulls, nullMask * 2)) = Ok (Z.testbit V k, nulls', mask') /\ nstate N0 (k + 1) nulls' mask'.
Proof.
  intros HV Hs Hk Hd.
  assert (Hr : 0 <= k mod 8 < 8) by lia.
  assert (Hp : 0 < 2 ^ (k mod 8) <= 128).
  { split; [apply Z.pow_pos_nonneg; lia|]. change 128 with (2 ^ 7). apply Z.pow_le_mono_r; lia. }
  assert (Hnext : nstate N0 (k + 1) (N0 - k / 8) (2 ^ (k mod 8) * 2)).
  { unfold nstate. destruct (Z.eq_dec (k mod 8) 7) as [E|E].
    - right. rewrite E. split; [lia|]. split; [lia|]. split; [lia|reflexivity].
    - left. split; [lia|]. replace ((k + 1) mod 8) with (k mod 8 + 1) by lia. rewrite Z.pow_add_r by lia. reflexivity. }
  pose proof (bitmap_bit V (k / 8) (k mod 8) HV ltac:(lia) Hr) as Hb.
  replace (8 * (k / 8) + k mod 8) with k in Hb by lia.
  exists (N0 - k / 8), (2 ^ (k mod 8) * 2). split; [|exact Hnext].
  destruct Hs as [[-> ->]|[Hk0 [Hk8 [-> ->]]]].
  - replace (2 ^ (k mod 8) mod 256 =? 0) with false by (symmetry; apply Z.eqb_neq; rewrite Z.mod_small; lia).
    cbn [bind]. rewrite Hd. cbn [bind]. rewrite (Z.mod_small (2 ^ (k mod 8)) 256) by lia. rewrite Hb. destruct (Z.testbit V k); reflexivity.
  - change (256 mod 256 =? 0) with true. cbv iota.
    destruct (index_ok_inv _ _ _ Hd) as [Hd' _]. replace (N0 - (k / 8 - 1) - 1) with (N0 - k / 8) by lia.
    rewrite slice_from_ok by (clear - Hd'; lia). cbn [bind]. rewrite Hd. cbn [bind].
    rewrite Hk8 in *. change (1 mod 256) with (2 ^ 0). rewrite Hb. destruct (Z.testbit V k); reflexivity.
Qed.


Lemma col_step d c l f N0 V k nulls mask L offs :
  describes c l -> fits l f -> all_bytes d ->
  0 <= V -> 0 <= k -> nstate N0 k nulls mask ->
  (l_nullable l = true -> index d (N0 - k / 8) = Ok (V / 256 ^ (k / 8) mod 256) /\ Z.testbit V k = is_null f) ->
  (forall j b, nth_error (length_bytes l f) j = Some b -> index d (L - Z.of_nat j) = Ok b) ->
  0 <= L - len (length_bytes l f) -> L < len d ->
  0 <= offs -> offs + len (content f) < 65536 ->
  exists nulls' mask',
  offsetsNew_col d c (nulls, L, offs, mask)
  = Ok (entry offs f, (nulls', L - len (length_bytes l f), offs + len (content f), mask'))
  /\ nstate N0 (k + (if l_nullable l then 1 else 0)) nulls' mask'.
Proof.
  intros Hd Hf Hbytes HV Hk Hs Hn Hlen HL HLd Ho Hsum.
  pose proof (describes_fixed c l Hd) as Hfix. pose proof (describes_big c l Hd) as Hbig.
  assert (Hnul : exists nulls' mask', (if c_null c then
           nm <- (if mask mod 256 =? 0 then _ <- slice_from d (nulls - 1) ;; Ok (nulls - 1, 1) else Ok (nulls, mask)) ;;
           let '(nulls, nullMask) := nm in
           b <- index d nulls ;;
           if negb (Z.land b (nullMask mod 256) =? 0)
           then Ok (true, nulls, nullMask * 2)
           else Ok (false, nulls, nullMask * 2)
         else Ok (false, nulls, mask)) = Ok (is_null f, nulls', mask')
      /\ nstate N0 (k + (if l_nullable l then 1 else 0)) nulls' mask').
  { destruct Hd as [Hcn _]. rewrite Hcn. destruct (l_nullable l) eqn:En.
    - destruct (Hn eq_refl) as [H1 H2]. destruct (null_step d N0 V k nulls mask HV Hs Hk H1) as [n' [m' [E HS]]].
      exists n', m'. rewrite E, H2. split; [reflexivity|exact HS].
    - exists nulls, mask. rewrite Z.add_0_r. split; [|exact Hs].
      destruct f; [|reflexivity|reflexivity]. cbn in Hf. congruence. }
  destruct Hnul as [n' [m' [E HS]]]. exists n', m'. split; [|exact HS].
  unfold offsetsNew_col. rewrite E. cbn [bind]. clear E.
  destruct f as [|b|b]; cbn [is_null] in *; cbv iota.
  - cbn [length_bytes entry content]. change (len (@nil Z)) with 0. rewrite Z.sub_0_r, Z.add_0_r.
    rewrite land_16 by (cbn in Hsum; lia). reflexivity.
  - cbn [content entry] in *. unfold fits in Hf. cbn [length_bytes] in *. pose proof (len_nonneg b).
    destruct (l_fixed l) as [n|].
    + destruct Hfix as [Hfix Hn0]. rewrite Hfix. replace (n =? 0) with false by (symmetry; now apply Z.eqb_neq).
      change (zlen b) with (len b) in Hf. subst n. change (len (@nil Z)) with 0. rewrite Z.sub_0_r.
      cbn zeta. rewrite u64_id by lia. rewrite land_16 by lia. reflexivity.
    + rewrite Hfix. rewrite Hbig by reflexivity. cbn [Z.eqb]. change (zlen b) with (len b) in *.
      destruct (l_big l) eqn:Eb; cbn [andb] in *.
      * destruct (Z.leb_spec 128 (len b)) as [Hl|Hl].
        -- pose proof (Hlen 0%nat _ eq_refl) as I0. pose proof (Hlen 1%nat _ eq_refl) as I1.
           change (Z.of_nat 0) with 0 in I0. change (Z.of_nat 1) with 1 in I1. rewrite Z.sub_0_r in I0.
           change (len [128 + len b / 256; len b mod 256]) with 2 in *.
           rewrite I0. cbn [bind]. rewrite slice_from_ok by lia. cbn [bind].
           replace (negb (Z.land (128 + len b / 256) 128 =? 0)) with true.
           2:{ rewrite bit7 by lia. lia. }
           cbv iota. rewrite I1. cbn [bind]. rewrite slice_from_ok by lia. cbn [bind].
           rewrite two_bytes by lia. change 16383 with (2 ^ 14 - 1). rewrite land_ones by lia.
           replace (((128 + len b / 256) * 256 + len b mod 256) mod 2 ^ 14) with (len b) by lia.
           change 16384 with (2 ^ 14). rewrite land_pow2, testbit_div by lia.
           replace (Z.odd (((128 + len b / 256) * 256 + len b mod 256) / 2 ^ 14)) with false.
           2:{ replace (((128 + len b / 256) * 256 + len b mod 256) / 2 ^ 14) with 2 by lia. reflexivity. }
           cbn [negb Z.eqb]. cbv iota. cbn zeta. rewrite u64_id by lia. rewrite land_16 by lia.
           replace (L - 1 - 1) with (L - 2) by lia. reflexivity.
        -- pose proof (Hlen 0%nat _ eq_refl) as I0. change (Z.of_nat 0) with 0 in I0. rewrite Z.sub_0_r in I0.
           change (len [len b]) with 1 in *. rewrite I0. cbn [bind]. rewrite slice_from_ok by lia. cbn [bind].
           replace (negb (Z.land (len b) 128 =? 0)) with false.
           2:{ rewrite bit7 by lia. lia. }
           cbn zeta. rewrite u64_id by lia. rewrite land_16 by lia. reflexivity.
      * pose proof (Hlen 0%nat _ eq_refl) as I0. change (Z.of_nat 0) with 0 in I0. rewrite Z.sub_0_r in I0.
        change (len [len b]) with 1 in *. rewrite I0. cbn [bind]. rewrite slice_from_ok by lia. cbn [bind].
        cbn zeta. rewrite u64_id by lia. rewrite land_16 by lia. reflexivity.
  - cbn [content entry] in *. unfold fits in Hf. cbn [length_bytes] in *. pose proof (len_nonneg b).
    destruct (l_fixed l) as [n|]; [contradiction|]. destruct Hf as [Eb Hf]. change (zlen b) with (len b) in *.
    rewrite Hfix. rewrite Hbig by reflexivity. rewrite Eb. cbn [Z.eqb andb].
    pose proof (Hlen 0%nat _ eq_refl) as I0. pose proof (Hlen 1%nat _ eq_refl) as I1.
    change (Z.of_nat 0) with 0 in I0. change (Z.of_nat 1) with 1 in I1. rewrite Z.sub_0_r in I0.
    change (len [128 + 64 + len b / 256; len b mod 256]) with 2 in *.
    rewrite I0. cbn [bind]. rewrite slice_from_ok by lia. cbn [bind].
    replace (negb (Z.land (128 + 64 + len b / 256) 128 =? 0)) with true.
    2:{ rewrite bit7 by lia. lia. }
    cbv iota. rewrite I1. cbn [bind]. rewrite slice_from_ok by lia. cbn [bind].
    rewrite two_bytes by lia. change 16383 with (2 ^ 14 - 1). rewrite land_ones by lia.
    replace (((128 + 64 + len b / 256) * 256 + len b mod 256) mod 2 ^ 14) with (len b) by lia.
    change 16384 with (2 ^ 14). rewrite land_pow2, testbit_div by lia.
    replace (Z.odd (((128 + 64 + len b / 256) * 256 + len b mod 256) / 2 ^ 14)) with true.
    2:{ replace (((128 + 64 + len b / 256) * 256 + len b mod 256) / 2 ^ 14) with 3 by lia. reflexivity. }
    cbn [negb Z.eqb]. cbv iota. cbn zeta. rewrite u64_id by lia. rewrite land_16 by lia.
    replace (L - 1 - 1) with (L - 2) by lia. reflexivity.
Qed.

(** * The whole COMPACT record *)
Lemma index_from_app {A} (p m q : list A) j x : nth_error m j = Some x ->
  index (p ++ m ++ q) (len p + Z.of_nat j) = Ok x.
Proof.
  intro H. assert (Hj : (j < List.length m)%nat) by (apply nth_error_Some; congruence).
  apply index_some; [pose proof (len_nonneg p); lia|].
  replace (Z.to_nat (len p + Z.of_nat j)) with (List.length p + j)%nat by (unfold len; lia).
  rewrite nth_error_app2 by lia. replace (List.length p + j - List.length p)%nat with j by lia.
  rewrite nth_error_app1 by lia. exact H.
Qed.
Lemma nth_error_rev {A} (l : list A) j x : nth_error l j = Some x ->
  nth_error (rev l) (List.length l - 1 - j) = Some x.
Proof.
  intro H. assert (Hj : (j < List.length l)%nat) by (apply nth_error_Some; congruence).
  rewrite <- (rev_involutive l) in H. rewrite nth_error_nth' with (d := x) by (rewrite rev_length; lia).
  f_equal. rewrite rev_nth by lia. replace (List.length l - S (List.length l - 1 - j))%nat with j by lia.
  apply nth_error_nth. now rewrite rev_involutive in H.
Qed.
Lemma index_rev_app {A} (p m q : list A) j x : nth_error m j = Some x ->
  index (p ++ rev m ++ q) (len p + len m - 1 - Z.of_nat j) = Ok x.
Proof.
  intro H. assert (Hj : (j < List.length m)%nat) by (apply nth_error_Some; congruence).
  replace (len p + len m - 1 - Z.of_nat j) with (len p + Z.of_nat (List.length m - 1 - j)) by (unfold len; lia).
  apply index_from_app. now apply nth_error_rev.
Qed.

Lemma loop_new d N0 V : 0 <= V -> all_bytes d -> forall cols ls fs i k nulls mask L offs pre m,
  Forall2 describes cols ls -> Forall2 fits ls fs ->
  0 <= k -> nstate N0 k nulls mask ->
  (forall j b, nth_error (null_flags ls fs) j = Some b ->
     index d (N0 - (k + Z.of_nat j) / 8) = Ok (V / 256 ^ ((k + Z.of_nat j) / 8) mod 256)
     /\ Z.testbit V (k + Z.of_nat j) = b) ->
  (forall j b, nth_error (lengths ls fs) j = Some b -> index d (L - Z.of_nat j) = Ok b) ->
  0 <= L - len (lengths ls fs) -> L < len d ->
  0 <= offs -> offs + len (body fs) < 65536 ->
  len pre = 3 + i ->
  offsetsNew_loop cols i d (nulls, L, offs, mask) (pre ++ zeros (List.length cols + m))
  = Ok (pre ++ entries offs fs ++ zeros m).
Proof.
  intros HV Hb. induction cols as [|c cols IH]; intros ls fs i k nulls mask L offs pre m HC HF Hk Hs Hn Hl HL HLd Ho Hsum Hpre.
  - inversion HC; subst. inversion HF; subst. reflexivity.
  - inversion HC as [|? l ? ls' Hc HC']; subst. inversion HF as [|? f ? fs' Hf HF']; subst.
    cbn [null_flags lengths body flat_map] in *. fold (body fs') in *.
    rewrite len_app in HL, Hsum. pose proof (len_nonneg (body fs')). pose proof (len_nonneg (lengths ls' fs')).
    destruct (col_step d c l f N0 V k nulls mask L offs Hc Hf Hb HV Hk Hs) as [n' [m' [E HS]]].
    + intro En. specialize (Hn 0%nat (is_null f)). rewrite En in Hn. change (Z.of_nat 0) with 0 in Hn.
      rewrite Z.add_0_r in Hn. apply Hn. reflexivity.
    + intros j b H1. apply Hl. rewrite nth_error_app1; [exact H1|]. apply nth_error_Some. congruence.
    + lia.
    + exact HLd.
    + exact Ho.
    + lia.
    + cbn [offsetsNew_loop]. rewrite E. cbn [bind].
      change (List.length (c :: cols) + m)%nat with (S (List.length cols + m)). cbn [zeros repeat].
      rewrite set_index_app by lia. cbn [bind]. change (repeat 0 (List.length cols + m)) with (zeros (List.length cols + m)).
      replace (pre ++ entry offs f :: zeros (List.length cols + m)) with ((pre ++ [entry offs f]) ++ zeros (List.length cols + m))
        by (rewrite <- app_assoc; reflexivity).
      rewrite (IH ls' fs' (i + 1) (k + (if l_nullable l then 1 else 0)) n' m' (L - len (length_bytes l f)) (offs + len (content f)));
        [rewrite <- app_assoc; reflexivity|exact HC'|exact HF'|destruct (l_nullable l); lia|exact HS| | | | | | |].
      * intros j b H1. specialize (Hn (List.length (if l_nullable l then [is_null f] else []) + j)%nat b).
        rewrite nth_error_app2 in Hn by lia.
        replace (_ + j - _)%nat with j in Hn by lia. specialize (Hn H1).
        destruct (l_nullable l); cbn [List.length] in Hn.
        -- replace (k + 1 + Z.of_nat j) with (k + Z.of_nat (1 + j)) by lia. exact Hn.
        -- rewrite Z.add_0_r. exact Hn.
      * intros j b H1. specialize (Hl (List.length (length_bytes l f) + j)%nat b).
        rewrite nth_error_app2 in Hl by lia. replace (_ + j - _)%nat with j in Hl by lia. specialize (Hl H1).
        replace (L - len (length_bytes l f) - Z.of_nat j) with (L - Z.of_nat (List.length (length_bytes l f) + j)) by (unfold len; lia).
        exact Hl.
      * lia.
      * pose proof (len_nonneg (length_bytes l f)). lia.
      * pose proof (len_nonneg (content f)). lia.
      * lia.
      * rewrite len_app. change (len [entry offs f]) with 1. lia.
Qed.

Lemma forall2_length {A B} (R : A -> B -> Prop) l m : Forall2 R l m -> List.length l = List.length m.
Proof. induction 1; cbn; congruence. Qed.
Lemma zeros_split a b : zeros (a + b) = zeros a ++ zeros b.
Proof. unfold zeros. apply repeat_app. Qed.

(** only the part of the record below its origin matters *)
Lemma offsets_front pre header tail off table cols ls fs :
  let page := pre ++ rev (lengths ls fs) ++ be (Z.to_nat ((nullable_count ls + 7) / 8)) (flags_number (null_flags ls fs))
              ++ header ++ tail in
  all_bytes page -> len pre >= 1 -> len header = 5 ->
  off = len pre + len (lengths ls fs) + (nullable_count ls + 7) / 8 + 5 -> Forall2 fits ls fs -> Forall2 describes cols ls ->
  t_columns table = cols -> t_nullcount table = nullable_count ls -> len (body fs) < 65536 -> (3 <= List.length cols)%nat ->
  ibRecInitOffsetsNew page off (zeros (List.length cols * 2)) table
  = Ok ([0; len cols; 0] ++ entries 0 fs ++ zeros (List.length cols - 3)).
Proof.
  intros page Hb Hpre Hhd Hoff HF HC Htc Hnc Hbody Hn. unfold page in *. clear page.
  assert (Hlsfs : List.length ls = List.length fs) by (eapply forall2_length; eassumption).
  pose proof (nullable_nonneg ls) as Hnn. pose proof (flags_len ls fs Hlsfs) as Hfl.
  set (nb := (nullable_count ls + 7) / 8) in *. set (V := flags_number (null_flags ls fs)) in *.
  set (bm := be (Z.to_nat nb) V) in *.
  assert (Hbm : len bm = nb) by (unfold bm; rewrite len_be; unfold nb; lia).
  set (d := pre ++ rev (lengths ls fs) ++ bm ++ header ++ tail) in *.
  pose proof (len_nonneg (lengths ls fs)). pose proof (len_nonneg tail). pose proof (len_nonneg (body fs)).
  assert (Hd : len d = len pre + len (lengths ls fs) + nb + 5 + len tail).
  { unfold d. rewrite !len_app, len_rev, Hbm, Hhd. lia. }
  assert (Hnb : 0 <= nb) by (unfold nb; lia).
  unfold ibRecInitOffsetsNew.
  replace (zeros (List.length cols * 2)) with ([0; 0; 0] ++ zeros (List.length cols + (List.length cols - 3))).
  2:{ change [0; 0; 0] with (zeros 3). rewrite <- zeros_split. f_equal. lia. }
  change ([0; 0; 0] ++ ?r) with ([0; 0] ++ 0 :: r). rewrite set_index_app by reflexivity. cbn [bind].
  change ([0; 0] ++ 0 :: ?r) with ([0] ++ 0 :: 0 :: r). rewrite set_index_app by reflexivity. cbn [bind].
  rewrite slice_from_ok by lia. cbn [bind]. rewrite Hnc. fold nb. rewrite slice_from_ok by lia. cbn [bind]. rewrite Htc.
  change ([0] ++ len cols :: 0 :: zeros (List.length cols + (List.length cols - 3)))
    with ([0; len cols; 0] ++ zeros (List.length cols + (List.length cols - 3))).
  rewrite (loop_new d (off - 6) V (proj1 (flags_bound _)) Hb cols ls fs 0 0);
    [reflexivity|exact HC|exact HF|lia| | | | | | | |].
  - left. split; [change (0 / 8) with 0; lia|reflexivity].
  - intros j b Hjb'. rewrite Z.add_0_l. split; [|now apply flags_bit].
    assert (Hj : Z.of_nat j < nullable_count ls).
    { rewrite <- Hfl. assert (j < List.length (null_flags ls fs))%nat by (apply nth_error_Some; congruence). unfold len. lia. }
    assert (Hjb : 0 <= Z.of_nat j / 8 < nb) by (unfold nb; lia).
    replace d with ((pre ++ rev (lengths ls fs)) ++ bm ++ (header ++ tail)) by (unfold d; rewrite <- !app_assoc; reflexivity).
    replace (off - 6 - Z.of_nat j / 8) with (len (pre ++ rev (lengths ls fs)) + Z.of_nat (Z.to_nat nb - 1 - Z.to_nat (Z.of_nat j / 8)))
      by (rewrite len_app, len_rev; lia).
    apply index_from_app. unfold bm. rewrite be_nth by lia. rewrite Z2Nat.id by lia. reflexivity.
  - intros j b Hjb'. replace (off - 6 - nb - Z.of_nat j) with (len pre + len (lengths ls fs) - 1 - Z.of_nat j) by lia.
    unfold d. now apply index_rev_app.
  - lia.
  - lia.
  - lia.
  - lia.
  - reflexivity.
Qed.
Lemma offsets_new page off table cols ls fs :
  all_bytes page -> compact_at page off ls fs -> Forall2 describes cols ls ->
  t_columns table = cols -> t_nullcount table = nullable_count ls -> len (body fs) < 65536 -> (3 <= List.length cols)%nat ->
  ibRecInitOffsetsNew page off (zeros (List.length cols * 2)) table
  = Ok ([0; len cols; 0] ++ entries 0 fs ++ zeros (List.length cols - 3)).
Proof.
  intros Hb (pre & header & post & -> & Hpre & Hhd & Hoff & HF). change (@zlen) with (@len) in *.
  exact (offsets_front pre header (body fs ++ post) off table cols ls fs Hb Hpre Hhd Hoff HF).
Qed.

(** * Reading the offsets array *)
Lemma entries_nth : forall fs from i f, nth_error fs i = Some f ->
  nth_error (entries from fs) i = Some (entry (from + len (body (firstn i fs))) f).
Proof.
  induction fs as [|g fs IH]; intros from i f H; [now destruct i|].
  destruct i as [|i].
  - injection H as ->. cbn. now rewrite Z.add_0_r.
  - cbn [nth_error entries firstn body flat_map] in *. fold (body (firstn i fs)). rewrite (IH _ _ _ H).
    rewrite len_app. do 2 f_equal. lia.
Qed.
Definition low30 (x : Z) := Z.land x (2 ^ 30 - 1).
Lemma low30_mod x : low30 x = x mod 2 ^ 30.
Proof. unfold low30. apply land_ones. lia. Qed.
Lemma lor31 x : 0 <= x < 2 ^ 30 -> Z.lor x (2 ^ 31) = x + 2 ^ 31.
Proof. intro H. rewrite Z.lor_comm. change (2 ^ 31) with (1 * 2 ^ 31). rewrite lor_mul by lia. lia. Qed.
Lemma lor30 x : 0 <= x < 2 ^ 30 -> Z.lor x (2 ^ 30) = x + 2 ^ 30.
Proof. intro H. rewrite Z.lor_comm. change (2 ^ 30) with (1 * 2 ^ 30). rewrite lor_mul by lia. lia. Qed.
Lemma entry_mod from f : 0 <= from -> from + len (content f) < 2 ^ 30 ->
  exists t, 0 <= t <= 2 /\ entry from f = from + len (content f) + t * 2 ^ 30 /\ (t = 2 <-> f = FNull).
Proof.
  intros H1 H2. pose proof (len_nonneg (content f)). destruct f as [|b|b]; cbn [entry content] in *.
  - exists 2. change (len (@nil Z)) with 0 in *. rewrite lor31 by lia. split; [lia|]. split; [lia|]. split; reflexivity.
  - exists 0. split; [lia|]. split; [lia|]. split; [lia|discriminate].
  - exists 1. rewrite lor30 by lia. split; [lia|]. split; [lia|]. split; [lia|discriminate].
Qed.

(** the array holds the end of field i at 3+i *)
Definition holds (os : list Z) (fs : list stored) : Prop :=
  exists n x z, os = [0; n; x] ++ entries 0 fs ++ z.
Lemma base_index os fs i f : holds os fs -> nth_error fs i = Some f ->
  (base <- slice_from os 2 ;; index base (Z.of_nat i + 1)) = Ok (entry (len (body (firstn i fs))) f).
Proof.
  intros (n & x & z & ->) H. change (slice_from ([0; n; x] ++ entries 0 fs ++ z) 2) with (slice_from ([0; n] ++ (x :: entries 0 fs ++ z)) (len [0; n])).
  rewrite slice_from_app. cbn [bind]. change (x :: entries 0 fs ++ z) with ([x] ++ entries 0 fs ++ z).
  rewrite Z.add_comm. change 1 with (len [x]). apply index_from_app. rewrite (entries_nth fs 0 i f H). reflexivity.
Qed.
Lemma base_prev os fs i f : holds os fs -> nth_error fs i = Some f -> len (body fs) < 2 ^ 30 -> Z.of_nat i <> 0 ->
  exists t, (base <- slice_from os 2 ;; index base (Z.of_nat i)) = Ok (len (body (firstn i fs)) + t * 2 ^ 30) /\ 0 <= t <= 2.
Proof.
  intros Ho H Hb Hi0. destruct i as [|i]; [contradiction|].
  - assert (exists g, nth_error fs i = Some g) as [g Hg].
    { destruct (nth_error fs i) eqn:E; [eauto|]. apply nth_error_None in E.
      assert (S i < List.length fs)%nat by (apply nth_error_Some; congruence). lia. }
    pose proof (base_index os fs i g Ho Hg) as E. replace (Z.of_nat (S i)) with (Z.of_nat i + 1) by lia.
    assert (Ef : len (body (firstn i fs)) + len (content g) = len (body (firstn (S i) fs))).
    { clear - Hg. revert fs Hg. induction i as [|i IH]; intros [|h fs] Hg; try discriminate.
      - injection Hg as ->. cbn. rewrite app_nil_r. reflexivity.
      - cbn [nth_error] in Hg. specialize (IH fs Hg). cbn [firstn body flat_map] in *. unfold body in IH. cbn [firstn] in IH. rewrite !len_app. lia. }
    assert (Hle : len (body (firstn (S i) fs)) <= len (body fs)).
    { rewrite <- (firstn_skipn (S i) fs) at 2. unfold body. rewrite flat_map_app, len_app. pose proof (len_nonneg (flat_map content (skipn (S i) fs))). lia. }
    destruct (entry_mod (len (body (firstn i fs))) g) as [t [Ht [Et _]]]; [apply len_nonneg|lia|].
    exists t. rewrite E, Et, Ef. split; [reflexivity|]. lia.
Qed.
Lemma body_split fs i f : nth_error fs i = Some f ->
  body fs = body (firstn i fs) ++ content f ++ body (skipn (S i) fs).
Proof.
  intro H. rewrite <- (firstn_skipn i fs) at 1. unfold body. rewrite flat_map_app. f_equal.
  revert fs H. induction i as [|i IH]; intros [|g fs] H; try discriminate.
  - injection H as ->. reflexivity.
  - cbn [nth_error skipn] in *. now apply IH.
Qed.

(** where a field starts and how long it is *)
Lemma field_offs os fs i f : holds os fs -> nth_error fs i = Some f -> len (body fs) < 2 ^ 30 ->
  RecGetNthFieldOffs os (Z.of_nat i)
  = Ok (len (body (firstn i fs)), match f with FNull => 4294967295 | _ => len (content f) end).
Proof.
  intros Ho Hf Hb. pose proof (body_split fs i f Hf) as Hbs.
  assert (Hlen : len (body fs) = len (body (firstn i fs)) + len (content f) + len (body (skipn (S i) fs))) by (rewrite Hbs at 1; rewrite !len_app; lia).
  pose proof (len_nonneg (content f)). pose proof (len_nonneg (body (skipn (S i) fs))). pose proof (len_nonneg (body (firstn i fs))).
  unfold RecGetNthFieldOffs.
  pose proof (base_index os fs i f Ho Hf) as E1. pose proof (base_prev os fs i f Ho Hf Hb) as Hprev.
  destruct (slice_from os 2) as [base| |]; cbn [bind] in *; try discriminate.
  set (p := len (body (firstn i fs))) in *.
  destruct (entry_mod p f) as [u [Hu [Eu Hnull]]]; [lia|lia|].
  assert (Eoffs : (if Z.of_nat i =? 0 then Ok 0 else v <- index base (Z.of_nat i) ;; Ok (Z.land v (2 ^ 30 - 1))) = Ok p).
  { destruct (Z.eqb_spec (Z.of_nat i) 0) as [E0|E0].
    - f_equal. assert (i = 0%nat) by lia. subst i. reflexivity.
    - destruct (Hprev E0) as [t [E2 Ht]]. rewrite E2. cbn [bind]. f_equal. change (low30 (p + t * 2 ^ 30) = p). rewrite low30_mod. lia. }
  rewrite Eoffs. cbn [bind]. rewrite E1. cbn [bind].
  rewrite Eu, land_pow2, testbit_div by lia.
  replace (Z.odd ((p + len (content f) + u * 2 ^ 30) / 2 ^ 31)) with (u =? 2).
  2:{ destruct (Z.eqb_spec u 2) as [->|].
      - replace ((p + len (content f) + 2 * 2 ^ 30) / 2 ^ 31) with 1 by lia. reflexivity.
      - replace ((p + len (content f) + u * 2 ^ 30) / 2 ^ 31) with 0 by lia. reflexivity. }
  destruct (Z.eqb_spec u 2) as [Eu2|Eu2].
  - cbn [Z.eqb]. cbv iota. change (2 ^ 31 =? 0) with false. cbv iota. rewrite (proj1 Hnull Eu2). reflexivity.
  - change (0 =? 0) with true. cbv iota. fold (low30 (p + len (content f) + u * 2 ^ 30)). rewrite low30_mod.
    replace ((p + len (content f) + u * 2 ^ 30) mod 2 ^ 30) with (p + len (content f)) by lia.
    rewrite u64_id by lia. replace (p + len (content f) - p) with (len (content f)) by lia.
    destruct f; try reflexivity. exfalso. apply Eu2. now apply Hnull.
Qed.
Lemma get_field rec os fs post i f : holds os fs -> nth_error fs i = Some f -> len (body fs) < 2 ^ 30 ->
  rec = body fs ++ post ->
  RecGetNthField rec os (Z.of_nat i)
  = Ok (content f ++ body (skipn (S i) fs) ++ post, match f with FNull => 4294967295 | _ => len (content f) end).
Proof.
  intros Ho Hf Hb ->. unfold RecGetNthField. rewrite (field_offs os fs i f Ho Hf Hb). cbn [bind].
  replace (body fs ++ post) with (body (firstn i fs) ++ (content f ++ body (skipn (S i) fs) ++ post))
    by (rewrite (body_split fs i f Hf) at 1; rewrite <- !app_assoc; reflexivity).
  rewrite slice_from_app. reflexivity.
Qed.
Lemma nth_size os fs i f : holds os fs -> nth_error fs i = Some f -> len (body fs) < 2 ^ 30 ->
  RecOffsNthSize os (Z.of_nat i) = Ok (len (content f)).
Proof.
  intros Ho Hf Hb. pose proof (body_split fs i f Hf) as Hbs.
  assert (Hlen : len (body fs) = len (body (firstn i fs)) + len (content f) + len (body (skipn (S i) fs))) by (rewrite Hbs at 1; rewrite !len_app; lia).
  pose proof (len_nonneg (content f)). pose proof (len_nonneg (body (skipn (S i) fs))). pose proof (len_nonneg (body (firstn i fs))).
  unfold RecOffsNthSize.
  pose proof (base_index os fs i f Ho Hf) as E1. pose proof (base_prev os fs i f Ho Hf Hb) as Hprev.
  destruct (slice_from os 2) as [base| |]; cbn [bind] in *; try discriminate.
  rewrite (Z.add_comm 1). rewrite E1. set (p := len (body (firstn i fs))) in *.
  destruct (entry_mod p f) as [u [Hu [Eu _]]]; [lia|lia|]. cbn [bind]. rewrite Eu.
  destruct (Z.eqb_spec (Z.of_nat i) 0) as [E0|E0].
  - fold (low30 (p + len (content f) + u * 2 ^ 30)). rewrite low30_mod. f_equal.
    assert (i = 0%nat) by lia. subst i. assert (p = 0) by reflexivity. lia.
  - destruct (Hprev E0) as [t [E2 Ht]]. rewrite E2. cbn [bind]. f_equal. change (low30 (u64 (p + len (content f) + u * 2 ^ 30 - (p + t * 2 ^ 30))) = len (content f)).
    rewrite low30_mod. unfold u64.
    replace (p + len (content f) + u * 2 ^ 30 - (p + t * 2 ^ 30)) with (len (content f) + (u - t) * 2 ^ 30) by lia.
    clear - Hlen H H0 H1 Hb Hu Ht. assert (0 <= len (content f) < 2 ^ 30) by lia. revert H2. generalize (len (content f)) as x. intros x Hx. lia.
Qed.

(** * Decoding the fields *)
Lemma wbind_ret {A B} (a : A) (k : A -> W B) : wbind (wret a) k = k a.
Proof. unfold wbind, wret. destruct (k a). reflexivity. Qed.
Lemma wbind_lift {A B} (a : A) (k : A -> W B) : wbind (wlift (Ok a)) k = k a.
Proof. exact (wbind_ret a k). Qed.
Lemma wbind_assoc {A B C} (m : W A) (f : A -> W B) (g : B -> W C) :
  wbind (wbind m f) g = wbind m (fun x => wbind (f x) g).
Proof.
  destruct m as [o [a| |]]; cbn; try reflexivity. destruct (f a) as [o2 [b| |]]; cbn; try reflexivity.
  destruct (g b) as [o3 r]. now rewrite app_assoc.
Qed.
Lemma wbind_ext {A B} (m : W A) (f g : A -> W B) : (forall a, f a = g a) -> wbind m f = wbind m g.
Proof. intro H. destruct m as [o [a| |]]; cbn; [rewrite H|..]; reflexivity. Qed.

(** what one stored column gives, printing and panicking included *)
Definition field_value (rt : runtime) (following : bytes) (c : Column) (l : layout) (f : stored) : W Column :=
  match f with
  | FNull => wret (set_value c (VStr (bs "NULL")) (c_binary c))
  | FBytes b | FExtern b =>
    '(v, bin) <-w ParseData rt (c_type c) (c_mysql c) (b ++ following) (len b)
        (match l_fixed l with Some n => n | None => 0 end) (c_unsigned c) (c_binary c) ;;
    wret (set_value c v bin)
  end.
Fixpoint row_values (rt : runtime) (after : bytes) (cols : list Column) (ls : list layout) (fs : list stored) : W (list Column) :=
  match cols, ls, fs with
  | c :: cs, l :: ls', f :: fs' =>
    c' <-w field_value rt (body fs' ++ after) c l f ;;
    cs' <-w row_values rt after cs ls' fs' ;;
    wret (c' :: cs')
  | _, _, _ => wret []
  end.

Lemma skipn_cons_nth {A} (l : list A) i x t : skipn i l = x :: t -> nth_error l i = Some x /\ skipn (S i) l = t.
Proof.
  revert l. induction i as [|i IH]; intros [|y l] H; try discriminate.
  - cbn in H. injection H as -> ->. split; reflexivity.
  - cbn [skipn nth_error] in *. now apply IH.
Qed.
Definition fits0 (l : layout) (f : stored) : Prop :=
  match f, l_fixed l with
  | FNull, _ => l_nullable l = true
  | FBytes b, Some n => len b = n
  | FExtern _, Some _ => False
  | _, None => True
  end.
Lemma fits_fits0 l f : fits l f -> fits0 l f.
Proof. unfold fits, fits0. destruct f; destruct (l_fixed l); tauto. Qed.
Lemma forall2_impl {A B} (R S : A -> B -> Prop) l m : (forall a b, R a b -> S a b) -> Forall2 R l m -> Forall2 S l m.
Proof. induction 2; constructor; auto. Qed.
Lemma fits_fixed l f : fits0 l f -> len (content f) < 2 ^ 63 -> f <> FNull ->
  i64 (match l_fixed l with Some n => n | None => 0 end) = match l_fixed l with Some n => n | None => 0 end.
Proof.
  intros H Hl Hn. apply i64_id. pose proof (len_nonneg (content f)).
  destruct f as [|b|b]; [contradiction| |]; cbn in H; destruct (l_fixed l) as [n|]; try lia; try contradiction.
  cbn [content] in *. lia.
Qed.

Lemma col_fixed_of c l : describes c l -> col_fixed c = match l_fixed l with Some n => n | None => 0 end.
Proof. intro H. pose proof (describes_fixed c l H). destruct (l_fixed l); tauto. Qed.
Lemma parse_field rt rec os fs after i f c l : holds os fs -> len (body fs) < 2 ^ 30 -> rec = body fs ++ after ->
  len rec < 4294967295 -> nth_error fs i = Some f -> describes c l -> fits0 l f ->
  parseField rt rec os (Z.of_nat i) c = field_value rt (body (skipn (S i) fs) ++ after) c l f.
Proof.
  intros Ho Hb Hrec Hlr Hnth Hc Hf. unfold parseField. rewrite (get_field _ os fs after i f Ho Hnth Hb Hrec).
  rewrite wbind_lift. cbn beta iota.
  assert (Hsub : len (content f) + len (body (skipn (S i) fs)) <= len (body fs)).
  { rewrite (body_split fs i f Hnth), !len_app. pose proof (len_nonneg (body (firstn i fs))). lia. }
  pose proof (len_nonneg (body (skipn (S i) fs))). pose proof (len_nonneg after). pose proof (len_nonneg (content f)).
  rewrite Hrec, len_app in Hlr. rewrite !len_app. rewrite (col_fixed_of c l Hc).
  destruct f as [|b|b]; cbn [content field_value] in *.
  - change (len (@nil Z)) with 0. replace (0 + (len (body (skipn (S i) fs)) + len after) <? 4294967295) with true by lia.
    change (4294967295 =? 4294967295) with true. reflexivity.
  - replace (len b + (len (body (skipn (S i) fs)) + len after) <? len b) with false by lia.
    rewrite (fits_fixed l (FBytes b) Hf) by (cbn [content]; lia || discriminate). reflexivity.
  - replace (len b + (len (body (skipn (S i) fs)) + len after) <? len b) with false by lia.
    rewrite (fits_fixed l (FExtern b) Hf) by (cbn [content]; lia || discriminate). reflexivity.
Qed.
Lemma parse_fields rt rec os fs after : holds os fs -> len (body fs) < 2 ^ 30 -> rec = body fs ++ after -> len rec < 4294967295 ->
  forall cols ls rest i, skipn i fs = rest -> Forall2 describes cols ls -> Forall2 fits0 ls rest ->
  parseFields rt rec os (Z.of_nat i) cols = row_values rt after cols ls rest.
Proof.
  intros Ho Hb Hrec Hlr. induction cols as [|c cols IH]; intros ls rest i Hs HC HF; [reflexivity|].
  inversion HC as [|? l ? ls' Hc HC']; subst ls. inversion HF as [|? f ? fs' Hf HF' E1 E2].
  rewrite <- E2 in Hs. destruct (skipn_cons_nth fs i f fs' Hs) as [Hnth Hskip].
  cbn [parseFields row_values]. replace (Z.of_nat i + 1) with (Z.of_nat (S i)) by lia.
  rewrite (IH ls' fs' (S i) Hskip HC' HF'). rewrite (parse_field rt rec os fs after i f c l) by assumption.
  rewrite Hskip. reflexivity.
Qed.
Lemma check_size os fs : holds os fs -> len (body fs) < 2 ^ 30 ->
  forall cols ls rest i, skipn i fs = rest -> Forall2 describes cols ls -> Forall2 fits0 ls rest ->
  checkFieldSize os (Z.of_nat i) cols = Ok true.
Proof.
  intros Ho Hb. induction cols as [|c cols IH]; intros ls rest i Hs HC HF; [reflexivity|].
  inversion HC as [|? l ? ls' Hc HC']; subst ls. inversion HF as [|? f ? fs' Hf HF' E1 E2].
  rewrite <- E2 in Hs. destruct (skipn_cons_nth fs i f fs' Hs) as [Hnth Hskip].
  cbn [checkFieldSize]. replace (Z.of_nat i + 1) with (Z.of_nat (S i)) by lia.
  rewrite (IH ls' fs' (S i) Hskip HC' HF').
  rewrite (nth_size os fs i f Ho Hnth Hb). cbn [bind]. pose proof (describes_fixed c l Hc) as Hfx.
  destruct (l_fixed l) as [n|] eqn:El.
  - destruct Hfx as [E Hn]. rewrite E. replace (n =? 0) with false by (symmetry; now apply Z.eqb_neq). cbn [negb].
    destruct f as [|b|b]; cbn [fits0 content] in *; rewrite ?El in Hf.
    + destruct Hc as [Hc _]. rewrite Hc, Hf. reflexivity.
    + rewrite Hf. replace (n =? 0) with false by (symmetry; now apply Z.eqb_neq).
      rewrite Z.eqb_refl. cbn [negb andb]. rewrite andb_false_r. reflexivity.
    + contradiction.
  - rewrite Hfx. reflexivity.
Qed.
Lemma data_size os fs : fs <> [] -> (exists x z, os = [0; len fs; x] ++ entries 0 fs ++ z) ->
  exists v w, RecOffsDataSize os = Ok v /\ RecOffsSize os = Ok w.
Proof.
  intros Hne [x [z ->]].
  assert (E : exists v, RecOffsDataSize ([0; len fs; x] ++ entries 0 fs ++ z) = Ok v).
  { unfold RecOffsDataSize, RecOffNFields. change ([0; len fs; x] ++ entries 0 fs ++ z) with ([0; len fs] ++ (x :: entries 0 fs ++ z)).
    change 2 with (len [0; len fs]) at 1. rewrite slice_from_app. cbn [bind].
    change ([0; len fs] ++ (x :: entries 0 fs ++ z)) with (0 :: len fs :: x :: entries 0 fs ++ z). rewrite index_1. cbn [bind].
    apply index_total. rewrite len_cons, len_app. unfold len at 3. rewrite entries_len. fold (len fs). pose proof (len_nonneg fs). pose proof (len_nonneg z). lia. }
  destruct E as [v E]. exists v. eexists. split; [exact E|]. unfold RecOffsSize. rewrite E. cbn [bind].
  unfold RecOffsExtraSize. change ([0; len fs; x] ++ entries 0 fs ++ z) with ([0; len fs] ++ (x :: entries 0 fs ++ z)).
  change 2 with (len [0; len fs]) at 1. rewrite slice_from_app. cbn [bind]. rewrite index_0. reflexivity.
Qed.

(** * One COMPACT record of a page *)
Lemma page_format page : page_image page ->
  exists v, PageIsCompact page = Ok (if 128 <=? nth 42 page 0 then 32768 else 0) /\ v = tt.
Proof.
  intros [Hl Hb]. exists tt. split; [|reflexivity]. change (zlen page) with (len page) in Hl.
  unfold PageIsCompact, pageHeaderGetField. change (u64 (38 + 4)) with 42. rewrite slice_from_ok by lia. cbn [bind].
  change (Z.to_nat 42) with 42%nat.
  assert (Hn : nth_error page 42 = Some (nth 42 page 0)) by (apply nth_error_nth'; unfold len in Hl; lia).
  destruct (skipn 42 page) as [|b0 [|b1 t]] eqn:E.
  - apply (f_equal (@len Z)) in E. rewrite len_skipn in E by lia. cbn in E. lia.
  - apply (f_equal (@len Z)) in E. rewrite len_skipn in E by lia. cbn in E. lia.
  - assert (Hsk : Forall (fun b => 0 <= b < 256) (skipn 42 page)).
    { rewrite <- (firstn_skipn 42 page) in Hb. now apply Forall_app in Hb. }
    rewrite E in Hsk. inversion Hsk as [|? ? H0 Hsk']; subst. inversion Hsk' as [|? ? H1 _]; subst.
    rewrite mrf2_cons by assumption. cbn [bind].
    apply (f_equal (fun l => nth_error l 0)) in E. rewrite nth_error_skipn in E. change (42 + 0)%nat with 42%nat in E. rewrite Hn in E. injection E as E.
    rewrite E. f_equal. change 32768 with (2 ^ 15) at 1. rewrite land_pow2, testbit_high by lia.
    change (2 ^ 15) with 32768. destruct (Z.leb_spec 128 b0); [replace (32768 <=? _) with true by lia|replace (32768 <=? _) with false by lia]; reflexivity.
Qed.
Lemma compact_skip page off ls fs : compact_at page off ls fs ->
  exists post, skipn (Z.to_nat off) page = body fs ++ post /\ 0 <= off /\ off + len (body fs) <= len page
    /\ post = skipn (Z.to_nat (off + len (body fs))) page.
Proof.
  intros (pre & header & post & Hp & Hpre & Hh & Hoff & HF). change (@zlen) with (@len) in *.
  assert (Hpl : off = len (pre ++ rev (lengths ls fs) ++ be (Z.to_nat ((nullable_count ls + 7) / 8)) (flags_number (null_flags ls fs)) ++ header)).
  { rewrite !len_app, len_rev, len_be, Hh. pose proof (nullable_nonneg ls). lia. }
  set (front := pre ++ rev (lengths ls fs) ++ be (Z.to_nat ((nullable_count ls + 7) / 8)) (flags_number (null_flags ls fs)) ++ header) in *.
  replace page with (front ++ body fs ++ post) by (rewrite Hp; unfold front; now rewrite <- !app_assoc).
  exists post. clear Hoff. rewrite Hpl. clear Hpl. split; [rewrite to_nat_len; apply skipn_app_len|]. split; [apply len_nonneg|].
  split; [rewrite !len_app; pose proof (len_nonneg post); lia|].
  rewrite app_assoc, <- len_app, to_nat_len. symmetry. apply skipn_app_len.
Qed.
Lemma record_compact rt tm page off cols ls fs table c0 :
  compact_page page -> compact_at page off ls fs ->
  Forall2 describes cols ls -> Forall2 describes (t_columns table) ls -> t_nullcount table = nullable_count ls ->
  (3 <= List.length cols)%nat -> hd_error cols = Some c0 -> mget tm (c_table c0) = Some table ->
  parsePage_record rt tm page off cols
  = (r <-w row_values rt (skipn (Z.to_nat (off + len (body fs))) page) cols ls fs ;; wret (Some r)).
Proof.
  intros [Hpi Hcp] Hat HC HC2 Hnc Hn3 Hc0 Hm.
  pose proof Hat as (pre & header & post0 & _ & _ & _ & _ & HF).
  assert (HF0 : Forall2 fits0 ls fs) by (eapply forall2_impl; [apply fits_fits0|exact HF]).
  destruct (compact_skip page off ls fs Hat) as [post [Hsk [Ho0 [Hle Hpost]]]].
  pose proof Hpi as [Hpl Hpb]. change (zlen page) with (len page) in Hpl.
  unfold parsePage_record. rewrite slice_from_ok by (pose proof (len_nonneg (body fs)); lia). rewrite wbind_lift.
  destruct (page_format page Hpi) as [_ [E _]]. rewrite E. clear E. rewrite wbind_lift.
  replace (128 <=? nth 42 page 0) with true by lia. change (32768 =? 0) with false. cbv iota.
  destruct cols as [|c cols']; [discriminate|]. injection Hc0 as ->. rewrite index_0. cbn [bind]. rewrite Hm.
  assert (Hl2 : List.length (t_columns table) = List.length (c0 :: cols')).
  { rewrite (forall2_length _ _ _ HC2). symmetry. exact (forall2_length _ _ _ HC). }
  set (cols := c0 :: cols') in *. rewrite <- Hl2.
  assert (Hlf : List.length fs = List.length cols).
  { rewrite <- (forall2_length _ _ _ HF). symmetry. exact (forall2_length _ _ _ HC). }
  rewrite (offsets_new page off table (t_columns table) ls fs) by (try assumption; try reflexivity; lia).
  cbn [bind]. rewrite wbind_lift. cbn beta iota.
  set (os := [0; _; 0] ++ _).
  assert (Hos : holds os fs) by (unfold holds, os; eauto).
  pose proof (check_size os fs Hos ltac:(lia) cols ls fs 0 eq_refl HC HF0) as Hcs. change (Z.of_nat 0) with 0 in Hcs.
  rewrite Hcs.
  rewrite wbind_lift. cbv iota. unfold parseRecords. rewrite Hsk.
  assert (Hlr : len (body fs ++ post) < 4294967295) by (rewrite <- Hsk, len_skipn by (pose proof (len_nonneg (body fs)); lia); lia).
  pose proof (parse_fields rt (body fs ++ post) os fs post Hos ltac:(lia) eq_refl Hlr cols ls fs 0 eq_refl HC HF0) as Hpf.
  change (Z.of_nat 0) with 0 in Hpf. rewrite Hpf.
  destruct (data_size os fs) as [v [w [E1 E2]]].
  { destruct fs; [cbn in Hlf; lia|discriminate]. }
  { unfold os. replace (len (t_columns table)) with (len fs) by (unfold len; lia). eauto. }
  rewrite wbind_assoc, <- Hpost. apply wbind_ext. intro r.
  rewrite wbind_assoc, E1, wbind_lift, wbind_ret, E2, wbind_lift. reflexivity.
Qed.

Lemma row_of_values rt after cols ls fs r : row_of rt after cols ls fs r -> row_values rt after cols ls fs = (remarks cols fs, Ok r).
Proof.
  induction 1 as [|c cs l ls fs r _ IH|c cs l ls f fs v bin r Hf E _ IH]; [reflexivity| |]; cbn [row_values].
  - cbn [field_value]. rewrite wbind_ret, IH. unfold wbind, wret. cbn [remarks]. now rewrite app_nil_r.
  - change (zlen (content f)) with (len (content f)) in E.
    destruct f as [|b|b]; [contradiction| |]; cbn [field_value content] in *; rewrite E; unfold wbind, wret; cbn [remarks]; rewrite IH, !app_nil_r; reflexivity.
Qed.
Lemma wbind_pure {A B} (o : list bytes) (a : A) (f : A -> B) : wbind (o, Ok a) (fun x => wret (f x)) = (o, Ok (f a)).
Proof. unfold wbind, wret. now rewrite app_nil_r. Qed.
(** the lines printed depend on the column's type only *)
Lemma parse_remark rt c d n x u b o v bin : ParseData rt (c_type c) (c_mysql c) d n x u b = (o, Ok (v, bin)) -> o = remark c.
Proof.
  unfold ParseData, remark, wret. change 3 with DATA_FIXBINARY. change 246 with MYSQL_TYPE_NEWDECIMAL.
  destruct (c_type c =? DATA_VARCHAR) eqn:E1; [intro H; replace (c_type c =? DATA_FIXBINARY) with false by (unfold DATA_VARCHAR, DATA_FIXBINARY in *; lia); now injection H|].
  destruct (c_type c =? DATA_CHAR) eqn:E2; [intro H; replace (c_type c =? DATA_FIXBINARY) with false by (unfold DATA_CHAR, DATA_FIXBINARY in *; lia); now injection H|].
  destruct (c_type c =? DATA_FIXBINARY) eqn:E3; cbn [andb].
  - repeat match goal with
    | |- (if c_mysql c =? MYSQL_TYPE_NEWDECIMAL then _ else _) = _ -> _ => destruct (c_mysql c =? MYSQL_TYPE_NEWDECIMAL) eqn:?
    | |- (if ?e then _ else _) = _ -> _ => destruct e eqn:?
    end; intro H; injection H as H1 _; subst o; try reflexivity;
    replace (c_mysql c =? MYSQL_TYPE_NEWDECIMAL) with false by (unfold MYSQL_TYPE_NEWDECIMAL, MYSQL_TYPE_TIME, MYSQL_TYPE_TIMESTAMP, MYSQL_TYPE_DATETIME, MYSQL_TYPE_BIT, MYSQL_TYPE_STRING in *; lia); reflexivity.
  - repeat match goal with |- (if ?e then _ else _) = _ -> _ => destruct e end; intro H; injection H as H1 _; now subst.
Qed.
Lemma row_quiet rt after c cs l ls f fs v bin r : f <> FNull ->
  ParseData rt (c_type c) (c_mysql c) (content f ++ body fs ++ after) (zlen (content f))
            (match l_fixed l with Some n => n | None => 0 end) (c_unsigned c) (c_binary c) = ([], Ok (v, bin)) ->
  row_of rt after cs ls fs r ->
  row_of rt after (c :: cs) (l :: ls) (f :: fs)
    (mkColumn (c_name c) (c_type c) (c_mysql c) (c_pos c) (c_len c) v (c_null c) bin (c_unsigned c) (c_table c) :: r).
Proof. intros Hf E H. apply row_val; [exact Hf| |exact H]. rewrite <- (parse_remark _ _ _ _ _ _ _ _ _ _ E). exact E. Qed.

(** * REDUNDANT records *)
Definition plain (f : rstored) : stored := FBytes (rcontent f).
Lemma body_plain fs : body (map plain fs) = rbody fs.
Proof. unfold body, rbody. induction fs as [|f fs IH]; [reflexivity|]. cbn [map flat_map]. now rewrite IH. Qed.
Lemma ends_length nb : forall fs from, List.length (ends nb from fs) = List.length fs.
Proof. induction fs as [|f fs IH]; intro from; cbn; [reflexivity|]. now rewrite IH. Qed.
(** end offset i and its flag *)
Lemma ends_nth nb : forall fs from i f, nth_error fs i = Some f ->
  nth_error (ends nb from fs) i = Some (from + len (rbody (firstn (S i) fs)) + match f with RNull _ => nb | RBytes _ => 0 end).
Proof.
  induction fs as [|g fs IH]; intros from i f H; [now destruct i|].
  destruct i as [|i].
  - injection H as ->. cbn [ends nth_error firstn rbody flat_map]. rewrite app_nil_r. change (zlen (rcontent f)) with (len (rcontent f)).
    destruct f; f_equal; lia.
  - cbn [nth_error ends] in *. rewrite (IH _ _ _ H).
    change (firstn (S (S i)) (g :: fs)) with (g :: firstn (S i) fs). cbn [rbody flat_map]. fold (rbody (firstn (S i) fs)).
    rewrite len_app. change (zlen (rcontent g)) with (len (rcontent g)). do 2 f_equal. lia.
Qed.
Lemma rbody_firstn_le fs i : len (rbody (firstn i fs)) <= len (rbody fs).
Proof.
  rewrite <- (firstn_skipn i fs) at 2. unfold rbody. rewrite flat_map_app, len_app.
  pose proof (len_nonneg (flat_map rcontent (skipn i fs))). lia.
Qed.
Lemma plain_entries fs : forall from, 
  entries from (map plain fs) = map (fun i => from + len (rbody (firstn (S i) fs))) (seq 0 (List.length fs)).
Proof.
  induction fs as [|f fs IH]; intro from; [reflexivity|]. cbn [map entries plain entry content List.length seq]. f_equal.
  - cbn [firstn rbody flat_map]. now rewrite app_nil_r.
  - rewrite IH, <- seq_shift, map_map. apply map_ext. intro i.
    change (firstn (S (S i)) (f :: fs)) with (f :: firstn (S i) fs). cbn [rbody flat_map]. fold (rbody (firstn (S i) fs)).
    rewrite len_app. lia.
Qed.

(** the loops, given what each read returns *)
Lemma old1_loop d off fs : len (rbody fs) < 2 ^ 7 ->
  (forall i f, nth_error fs i = Some f -> Rec1GetFieldEndInfo d off (Z.of_nat i)
     = Ok (len (rbody (firstn (S i) fs)) + match f with RNull _ => 2 ^ 7 | RBytes _ => 0 end)) ->
  forall n i pre m, (i + n = List.length fs)%nat -> len pre = 3 + Z.of_nat i ->
  offsetsOld1 n (Z.of_nat i) d off (pre ++ zeros (n + m))
  = Ok (pre ++ map (fun j => len (rbody (firstn (S j) fs))) (seq i n) ++ zeros m).
Proof.
  intros Hb Hr. induction n as [|n IH]; intros i pre m Hi Hpre; [reflexivity|].
  cbn [offsetsOld1]. destruct (nth_error fs i) as [f|] eqn:Ef; [|apply nth_error_None in Ef; lia].
  rewrite (Hr i f Ef). cbn [bind]. set (e := len (rbody (firstn (S i) fs))).
  assert (He : 0 <= e < 128) by (pose proof (rbody_firstn_le fs (S i)); pose proof (len_nonneg (rbody (firstn (S i) fs))); unfold e; lia).
  assert (Eland : Z.land (if Z.land (e + match f with RNull _ => 2 ^ 7 | RBytes _ => 0 end) 128 =? 0
     then e + match f with RNull _ => 2 ^ 7 | RBytes _ => 0 end
     else Z.lor (Z.ldiff (e + match f with RNull _ => 2 ^ 7 | RBytes _ => 0 end) 128) (2 ^ 31)) 65535 = e).
  { change 128 with (2 ^ 7). rewrite land_pow2, ldiff_pow2, testbit_high by (destruct f; lia).
    destruct f; [replace (2 ^ 7 <=? e + 2 ^ 7) with true by lia|replace (2 ^ 7 <=? e + 0) with false by lia].
    - change (2 ^ 7 =? 0) with false. cbv iota. replace (e + 2 ^ 7 - 2 ^ 7) with e by lia. rewrite lor31 by lia.
      change 65535 with (2 ^ 16 - 1). rewrite land_ones by lia. lia.
    - change (0 =? 0) with true. cbv iota. rewrite Z.add_0_r. apply land_16. lia. }
  cbn zeta. rewrite Eland. cbn [plus zeros repeat]. rewrite set_index_app by lia. cbn [bind].
  change (repeat 0 (n + m)) with (zeros (n + m)).
  replace (pre ++ e :: zeros (n + m)) with ((pre ++ [e]) ++ zeros (n + m)) by (rewrite <- app_assoc; reflexivity).
  replace (Z.of_nat i + 1) with (Z.of_nat (S i)) by lia. rewrite IH; [|lia|rewrite len_app; change (len [e]) with 1; lia].
  rewrite <- app_assoc. reflexivity.
Qed.
Lemma old2_loop d off fs : len (rbody fs) < 2 ^ 14 ->
  (forall i f, nth_error fs i = Some f -> Rec2GetFieldEndInfo d off (Z.of_nat i)
     = Ok (len (rbody (firstn (S i) fs)) + match f with RNull _ => 2 ^ 15 | RBytes _ => 0 end)) ->
  forall n i pre m, (i + n = List.length fs)%nat -> len pre = 3 + Z.of_nat i ->
  offsetsOld2 n (Z.of_nat i) d off (pre ++ zeros (n + m))
  = Ok (pre ++ map (fun j => len (rbody (firstn (S j) fs))) (seq i n) ++ zeros m).
Proof.
  intros Hb Hr. induction n as [|n IH]; intros i pre m Hi Hpre; [reflexivity|].
  cbn [offsetsOld2]. destruct (nth_error fs i) as [f|] eqn:Ef; [|apply nth_error_None in Ef; lia].
  rewrite (Hr i f Ef). cbn [bind]. set (e := len (rbody (firstn (S i) fs))).
  assert (He : 0 <= e < 2 ^ 14) by (pose proof (rbody_firstn_le fs (S i)); pose proof (len_nonneg (rbody (firstn (S i) fs))); unfold e; lia).
  set (o1 := if Z.land (e + match f with RNull _ => 2 ^ 15 | RBytes _ => 0 end) 32768 =? 0
     then e + match f with RNull _ => 2 ^ 15 | RBytes _ => 0 end
     else Z.lor (Z.ldiff (e + match f with RNull _ => 2 ^ 15 | RBytes _ => 0 end) 32768) (2 ^ 31)).
  assert (E1 : o1 = e + match f with RNull _ => 2 ^ 31 | RBytes _ => 0 end).
  { unfold o1. change 32768 with (2 ^ 15). rewrite land_pow2, ldiff_pow2, testbit_high by (destruct f; lia).
    destruct f; [replace (2 ^ 15 <=? e + 2 ^ 15) with true by lia|replace (2 ^ 15 <=? e + 0) with false by lia].
    - change (2 ^ 15 =? 0) with false. cbv iota. replace (e + 2 ^ 15 - 2 ^ 15) with e by lia. now rewrite lor31 by lia.
    - reflexivity. }
  assert (E2 : (if Z.land o1 16384 =? 0 then o1 else Z.lor (Z.ldiff o1 32768) (2 ^ 30)) = o1).
  { rewrite E1. change 16384 with (2 ^ 14). rewrite land_pow2, testbit_div by lia.
    replace (Z.odd ((e + match f with RNull _ => 2 ^ 31 | RBytes _ => 0 end) / 2 ^ 14)) with false; [reflexivity|].
    destruct f; [replace ((e + 2 ^ 31) / 2 ^ 14) with 131072 by lia|replace ((e + 0) / 2 ^ 14) with 0 by lia]; reflexivity. }
  cbn zeta. fold o1. rewrite E2, E1.
  replace (Z.land (e + match f with RNull _ => 2 ^ 31 | RBytes _ => 0 end) 65535) with e.
  2:{ change 65535 with (2 ^ 16 - 1). rewrite land_ones by lia. destruct f; lia. }
  cbn [plus zeros repeat]. rewrite set_index_app by lia. cbn [bind].
  change (repeat 0 (n + m)) with (zeros (n + m)).
  replace (pre ++ e :: zeros (n + m)) with ((pre ++ [e]) ++ zeros (n + m)) by (rewrite <- app_assoc; reflexivity).
  replace (Z.of_nat i + 1) with (Z.of_nat (S i)) by lia. rewrite IH; [|lia|rewrite len_app; change (len [e]) with 1; lia].
  rewrite <- app_assoc. reflexivity.
Qed.
Lemma slice_index {A} (d : list A) p x : index d p = Ok x -> slice_from d p = Ok (skipn (Z.to_nat p) d) /\ exists t, skipn (Z.to_nat p) d = x :: t.
Proof.
  intro H. apply index_ok_inv in H as [H1 H2]. split; [apply slice_from_ok; lia|].
  destruct (skipn (Z.to_nat p) d) as [|y t] eqn:E.
  - apply (f_equal (@len A)) in E. rewrite len_skipn in E by lia. cbn in E. lia.
  - exists t. f_equal. apply (f_equal (fun l => nth_error l 0)) in E. rewrite nth_error_skipn, Nat.add_0_r, H2 in E. now injection E.
Qed.
Lemma flat_be2_len (l : list Z) : len (flat_map (be 2) l) = 2 * len l.
Proof. induction l as [|x l IH]; [reflexivity|]. cbn [flat_map]. rewrite len_app, len_be, len_cons, IH. lia. Qed.

Lemma offsets_old_exact page off wide fs : all_bytes page -> redundant_at page off wide fs -> (3 <= List.length fs)%nat -> len page < 2 ^ 63 ->
  ibRecInitOffsetsOld page off (zeros (List.length fs * 2)) (List.length fs)
  = Ok ([0; len fs; 6 + (if wide then 2 else 1) * len fs] ++ entries 0 (map plain fs) ++ zeros (List.length fs - 3)).
Proof.
  intros Hpb (pre & header & post & Hp & Hh & Hbit & Hoff & Hb) Hn Hpl. change (@zlen) with (@len) in *.
  set (offsets := if wide then _ else _) in *.
  assert (Hd : page = (pre ++ offsets) ++ header ++ (rbody fs ++ post)) by (rewrite Hp, <- !app_assoc; reflexivity).
  assert (Hlens : 0 <= len pre /\ 0 <= len offsets /\ 0 <= len (rbody fs) /\ 0 <= len post) by (repeat split; apply len_nonneg).
  assert (Hplen : len page = len pre + len offsets + 6 + len (rbody fs) + len post).
  { rewrite Hp, !len_app, Hh. lia. }
  unfold ibRecInitOffsetsOld.
  replace (zeros (List.length fs * 2)) with ([0; 0; 0] ++ zeros (List.length fs + (List.length fs - 3))).
  2:{ change [0; 0; 0] with (zeros 3). rewrite <- zeros_split. f_equal. lia. }
  set (tail := zeros _) at 1.
  change ([0; 0; 0] ++ tail) with ([0; 0] ++ 0 :: tail). rewrite set_index_app by reflexivity. cbn [bind].
  change ([0; 0] ++ 0 :: tail) with ([0] ++ 0 :: 0 :: tail). rewrite set_index_app by reflexivity. cbn [bind].
  assert (Hflag : RecGet1byteOffsFlag page off = Ok (if wide then 0 else 1)).
  { unfold RecGet1byteOffsFlag, RecGetBitField1. rewrite u64_id by lia.
    assert (Hi : index page (off - 3) = Ok (nth 3 header 0)).
    { replace (off - 3) with (len (pre ++ offsets) + Z.of_nat 3) by (rewrite len_app; lia). rewrite Hd.
      apply index_from_app. apply nth_error_nth'. unfold len in Hh. lia. }
    destruct (slice_index _ _ _ Hi) as [E1 [t E2]]. rewrite E1. cbn [bind]. rewrite E2, mrf1_cons. cbn [bind].
    change 1 with (2 ^ 1 - 1). rewrite land_ones by lia. change (2 ^ 1) with 2. rewrite Hbit. destruct wide; reflexivity. }
  rewrite Hflag. cbn [bind].
  change ([0] ++ Z.of_nat (List.length fs) :: 0 :: tail) with ([0; len fs] ++ 0 :: tail).
  assert (Hent : map (fun j => len (rbody (firstn (S j) fs))) (seq 0 (List.length fs)) = entries 0 (map plain fs)).
  { rewrite plain_entries. apply map_ext. intro. lia. }
  destruct wide.
  - change (negb (0 =? 0)) with false. cbv iota. rewrite set_index_app by reflexivity. cbn [bind].
    set (x := 6 + _). replace (6 + 2 * len fs) with x by (unfold x, len; lia).
    change ([0; len fs] ++ x :: tail) with ([0; len fs; x] ++ tail). unfold tail.
    change 0 with (Z.of_nat 0) at 1. rewrite (old2_loop page off fs Hb); [rewrite Hent; reflexivity| |lia|reflexivity].
    intros i f Hf. unfold Rec2GetFieldEndInfo.
    pose proof (ends_nth (2 ^ 15) fs 0 i f Hf) as He. rewrite Z.add_0_l in He.
    set (e := len (rbody (firstn (S i) fs)) + _) in *.
    apply nth_error_split in He as (l1 & l2 & El & Hl1).
    assert (Hall : len l1 + 1 + len l2 = len fs).
    { unfold len. rewrite <- (ends_length (2 ^ 15) fs 0), El, app_length. cbn [List.length]. lia. }
    assert (Hlo : len offsets = 2 * len fs).
    { unfold offsets. rewrite flat_be2_len, len_rev. unfold len. rewrite ends_length. reflexivity. }
    assert (Eoff : offsets = flat_map (be 2) (rev l2) ++ be 2 e ++ flat_map (be 2) (rev l1)).
    { unfold offsets. rewrite El, rev_app_distr. cbn [rev]. rewrite <- app_assoc, flat_map_app. cbn [app flat_map]. reflexivity. }
    pose proof (len_nonneg l1). pose proof (len_nonneg l2).
    rewrite u64_id by (unfold len in *; lia).
    replace page with ((pre ++ flat_map (be 2) (rev l2)) ++ be 2 e ++ (flat_map (be 2) (rev l1) ++ header ++ rbody fs ++ post)).
    2:{ rewrite Hp, Eoff. rewrite <- !app_assoc. reflexivity. }
    rewrite slice_from_app_eq.
    2:{ rewrite len_app, flat_be2_len, len_rev. unfold len in *. lia. }
    cbn [bind]. apply mrf2_be.
    pose proof (rbody_firstn_le fs (S i)). pose proof (len_nonneg (rbody (firstn (S i) fs))). unfold e. change (256 ^ 2) with 65536. destruct f; lia.
  - change (negb (1 =? 0)) with true. cbv iota. rewrite set_index_app by reflexivity. cbn [bind].
    set (x := 6 + _). replace (6 + 1 * len fs) with x by (unfold x, len; lia).
    change ([0; len fs] ++ x :: tail) with ([0; len fs; x] ++ tail). unfold tail.
    change 0 with (Z.of_nat 0) at 1. rewrite (old1_loop page off fs Hb); [rewrite Hent; reflexivity| |lia|reflexivity].
    intros i f Hf. unfold Rec1GetFieldEndInfo.
    pose proof (ends_nth (2 ^ 7) fs 0 i f Hf) as He. rewrite Z.add_0_l in He.
    set (e := len (rbody (firstn (S i) fs)) + _) in *.
    assert (Hlo : len offsets = len fs) by (unfold offsets; rewrite len_rev; unfold len; now rewrite ends_length).
    assert (Hi : (i < List.length fs)%nat) by (apply nth_error_Some; congruence).
    rewrite u64_id by (unfold len in *; lia).
    assert (Hidx : index page (off - (6 + Z.of_nat i + 1)) = Ok e).
    { replace (off - (6 + Z.of_nat i + 1)) with (len pre + len (ends (2 ^ 7) 0 fs) - 1 - Z.of_nat i).
      - rewrite Hp. unfold offsets. now apply index_rev_app.
      - unfold len at 2. rewrite ends_length. fold (len fs). lia. }
    destruct (slice_index _ _ _ Hidx) as [E1 [t E2]]. rewrite E1. cbn [bind]. rewrite E2. apply mrf1_cons.
Qed.
Lemma offsets_old page off wide fs : all_bytes page -> redundant_at page off wide fs -> (3 <= List.length fs)%nat -> len page < 2 ^ 63 ->
  exists x, ibRecInitOffsetsOld page off (zeros (List.length fs * 2)) (List.length fs)
  = Ok ([0; len fs; x] ++ entries 0 (map plain fs) ++ zeros (List.length fs - 3)).
Proof. intros. eexists. now apply (offsets_old_exact page off wide fs). Qed.
Lemma redundant_skip page off wide fs : redundant_at page off wide fs ->
  exists post, skipn (Z.to_nat off) page = rbody fs ++ post /\ 0 <= off /\ off + len (rbody fs) <= len page
    /\ post = skipn (Z.to_nat (off + len (rbody fs))) page.
Proof.
  intros (pre & header & post & Hp & Hh & Hbit & Hoff & Hb). change (@zlen) with (@len) in *.
  set (offsets := if wide then _ else _) in *.
  assert (Hpl : off = len (pre ++ offsets ++ header)) by (rewrite !len_app, Hh; lia).
  set (front := pre ++ offsets ++ header) in *.
  replace page with (front ++ rbody fs ++ post) by (rewrite Hp; unfold front; now rewrite <- !app_assoc).
  exists post. clear Hoff. rewrite Hpl. clear Hpl. split; [rewrite to_nat_len; apply skipn_app_len|]. split; [apply len_nonneg|].
  split; [rewrite !len_app; pose proof (len_nonneg post); lia|].
  rewrite app_assoc, <- len_app, to_nat_len. symmetry. apply skipn_app_len.
Qed.
Lemma record_redundant rt tm page off wide cols ls fs :
  redundant_page page -> redundant_at page off wide fs ->
  Forall2 describes cols ls -> Forall2 rfits ls fs -> (3 <= List.length cols)%nat ->
  parsePage_record rt tm page off cols
  = (r <-w row_values rt (skipn (Z.to_nat (off + len (rbody fs))) page) cols ls (map plain fs) ;; wret (Some r)).
Proof.
  intros [Hpi Hcp] Hat HC HF Hn3.
  destruct (redundant_skip page off wide fs Hat) as [post [Hsk [Ho0 [Hle Hpost]]]].
  pose proof Hpi as [Hpl Hpb]. change (zlen page) with (len page) in Hpl.
  assert (Hlf : List.length fs = List.length cols).
  { rewrite <- (forall2_length _ _ _ HF). symmetry. exact (forall2_length _ _ _ HC). }
  assert (HF0 : Forall2 fits0 ls (map plain fs)).
  { clear - HF. induction HF as [|l f ls fs H _ IH]; cbn [map]; constructor; [|exact IH].
    unfold rfits in H. unfold fits0, plain. destruct (l_fixed l); [exact H|exact I]. }
  assert (Hbl : len (body (map plain fs)) = len (rbody fs)) by now rewrite body_plain.
  unfold parsePage_record. rewrite slice_from_ok by (pose proof (len_nonneg (rbody fs)); lia). rewrite wbind_lift.
  destruct (page_format page Hpi) as [_ [E _]]. rewrite E. clear E. rewrite wbind_lift.
  replace (128 <=? nth 42 page 0) with false by lia. change (0 =? 0) with true. cbv iota.
  rewrite <- Hlf. destruct (offsets_old page off wide fs Hpb Hat) as [x E]; [lia|lia|]. rewrite E. clear E.
  cbn [bind]. rewrite wbind_lift. cbn beta iota.
  set (os := [0; _; _] ++ _).
  assert (Hos : holds os (map plain fs)) by (unfold holds, os; eauto).
  pose proof (check_size os _ Hos ltac:(lia) cols ls (map plain fs) 0 eq_refl HC HF0) as Hcs. change (Z.of_nat 0) with 0 in Hcs.
  rewrite Hcs. rewrite wbind_lift. cbv iota. unfold parseRecords. rewrite Hsk.
  assert (Hlr : len (rbody fs ++ post) < 4294967295) by (rewrite <- Hsk, len_skipn by (pose proof (len_nonneg (rbody fs)); lia); lia).
  pose proof (parse_fields rt (rbody fs ++ post) os (map plain fs) post Hos ltac:(lia) ltac:(now rewrite body_plain) Hlr cols ls (map plain fs) 0 eq_refl HC HF0) as Hpf.
  change (Z.of_nat 0) with 0 in Hpf. rewrite Hpf.
  destruct (data_size os (map plain fs)) as [v [w [E1 E2]]].
  { destruct fs; [cbn in Hlf; lia|discriminate]. }
  { unfold os. rewrite len_map. eauto. }
  rewrite wbind_assoc, <- Hpost. apply wbind_ext. intro r.
  rewrite wbind_assoc, E1, wbind_lift, wbind_ret, E2, wbind_lift. reflexivity.
Qed.

(** * Two-byte length or not does not matter for short values *)
Definition small (f : stored) : Prop := match f with FNull => True | FBytes b => len b < 128 | FExtern _ => False end.
Inductive narrowed : list layout -> list stored -> list layout -> Prop :=
| nw_nil : narrowed [] [] []
| nw_same l ls f fs ls' : narrowed ls fs ls' -> narrowed (l :: ls) (f :: fs) (l :: ls')
| nw_small l ls f fs ls' : small f -> narrowed ls fs ls' ->
    narrowed (l :: ls) (f :: fs) (mkLayout (l_nullable l) (l_fixed l) false :: ls').
Lemma small_length l f : small f -> length_bytes (mkLayout (l_nullable l) (l_fixed l) false) f = length_bytes l f.
Proof.
  unfold length_bytes. cbn [l_fixed l_big]. destruct f as [|b|b]; [reflexivity| |contradiction]. cbn [small]. intro H.
  destruct (l_fixed l); [reflexivity|]. change (zlen b) with (len b). replace (128 <=? len b) with false by lia. rewrite !andb_false_r. reflexivity.
Qed.
Lemma small_fits l f : small f -> fits l f -> fits (mkLayout (l_nullable l) (l_fixed l) false) f.
Proof.
  unfold fits. cbn [l_fixed l_nullable l_big]. destruct f as [|b|b]; [tauto| |contradiction]. cbn [small]. intro H.
  destruct (l_fixed l); [tauto|]. change (zlen b) with (len b). intros _. lia.
Qed.
Lemma count_cons l ls : nullable_count (l :: ls) = (if l_nullable l then 1 else 0) + nullable_count ls.
Proof. unfold nullable_count. cbn [filter]. destruct (l_nullable l); [|lia]. unfold zlen. cbn [List.length]. lia. Qed.
Lemma narrowed_at page off ls fs ls' : narrowed ls fs ls' -> compact_at page off ls fs ->
  compact_at page off ls' fs /\ nullable_count ls' = nullable_count ls.
Proof.
  intros HN (pre & header & post & Hp & H1 & H2 & H3 & HF).
  assert (E : lengths ls' fs = lengths ls fs /\ null_flags ls' fs = null_flags ls fs
    /\ nullable_count ls' = nullable_count ls /\ Forall2 fits ls' fs).
  { clear - HF HN. induction HN as [|l ls f fs ls' HN IH|l ls f fs ls' Hs HN IH]; [repeat split; constructor| |];
      inversion HF as [|? ? ? ? Hf HF']; subst; destruct (IH HF') as [E1 [E2 [E3 E4]]]; cbn [lengths null_flags];
      rewrite ?count_cons, E1, E2, E3; repeat split; try (constructor; assumption).
    - now rewrite small_length.
    - constructor; [now apply small_fits|exact E4]. }
  destruct E as [E1 [E2 [E3 E4]]]. split; [|exact E3]. exists pre, header, post. rewrite E1, E2, E3. tauto.
Qed.
Lemma narrowed_row rt after cols ls fs ls' row : narrowed ls fs ls' -> row_of rt after cols ls fs row -> row_of rt after cols ls' fs row.
Proof.
  intros HN H. revert ls' HN. induction H as [|c cs l ls fs r H IH|c cs l ls f fs v bin r Hf E H IH]; intros ls' HN; inversion HN; subst; constructor; auto.
Qed.

(** * Decoding does not look at the values the descriptors hold *)
Lemma same_column_field rt r c c' l f : same_column c c' -> field_value rt r c l f = field_value rt r c' l f.
Proof.
  intro H. destruct c, c'. unfold same_column in H. cbn in H. destruct H as (-> & -> & -> & -> & -> & -> & -> & -> & ->).
  unfold field_value, set_value. cbn. reflexivity.
Qed.
Lemma same_columns_row rt after : forall cols cols', Forall2 same_column cols cols' -> forall ls fs,
  row_values rt after cols ls fs = row_values rt after cols' ls fs.
Proof.
  induction 1 as [|c c' cs cs' H _ IH]; intros ls fs; [reflexivity|]. cbn [row_values].
  destruct ls as [|l ls]; [reflexivity|]. destruct fs as [|f fs]; [reflexivity|].
  rewrite (same_column_field rt _ c c' l f H). apply wbind_ext. intro x. now rewrite IH.
Qed.
Lemma same_column_describes c c' l : same_column c c' -> describes c l -> describes c' l.
Proof.
  intro H. destruct c, c'. unfold same_column in H. cbn in H. destruct H as (-> & -> & -> & -> & -> & -> & -> & -> & ->). exact (fun X => X).
Qed.
Lemma same_columns_describe cols cols' ls : Forall2 same_column cols cols' -> Forall2 describes cols ls -> Forall2 describes cols' ls.
Proof.
  intro H. revert ls. induction H as [|c c' cs cs' Hc H IH]; intros ls HC; inversion HC; subst; constructor; [|now apply IH].
  now apply (same_column_describes c).
Qed.
