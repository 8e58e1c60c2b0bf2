(** Proofs for PropTypes.v: DECIMAL, fractions of seconds, ENUM. *)
From Verif Require Import GoBase Utils SpecInno SpecText SpecTypes PBase PWire PValue PCal PText.
Local Open Scope list_scope.

(** DECIMAL *)
Lemma digits_val_dec ds : digits_val ds = dec_val (map (fun d => d + 48) ds).
Proof.
  unfold digits_val, dec_val. generalize 0. induction ds as [|d t IH]; intro a; [reflexivity|].
  cbn [fold_left map]. rewrite IH. f_equal. lia.
Qed.
Lemma digits_chars ds : digits ds -> Forall digit (map (fun d => d + 48) ds).
Proof. intro H. apply Forall_map. eapply Forall_impl; [|exact H]. intros d Hd. cbv beta in *. unfold digit. lia. Qed.
Lemma digits_val_bound ds : digits ds -> 0 <= digits_val ds < 10 ^ len ds.
Proof.
  intro H. rewrite digits_val_dec. pose proof (dec_val_bound _ (digits_chars ds H)) as B.
  unfold len in *. rewrite map_length in B. exact B.
Qed.

Lemma group_first g : (1 <= List.length g <= 9)%nat -> digits g ->
  exists b t, store_group g = b :: t /\ 0 <= b <= 99 /\ (b = 82 -> List.length g = 2%nat /\ digits_val g = 82).
Proof.
  intros Hl Hd. pose proof (digits_val_bound g Hd) as B. unfold store_group, len in *.
  generalize dependent (digits_val g). intros v B.
  destruct (List.length g) as [|[|[|[|[|[|[|[|[|[|n]]]]]]]]]]; try lia; unfold group_bytes; cbn [nth be app];
  (eexists _, _; split; [reflexivity|]);
  match type of B with _ <= _ < 10 ^ Z.of_nat ?n => let x := eval vm_compute in (10 ^ Z.of_nat n) in change (10 ^ Z.of_nat n) with x in B end;
  (split; [lia|intro E; try (exfalso; lia)]). split; [reflexivity|lia].
Qed.

Lemma group_short g : (1 <= List.length g <= 9)%nat -> (List.length (store_group g) <= List.length g)%nat.
Proof.
  intro Hl. unfold store_group. rewrite be_length.
  destruct (List.length g) as [|[|[|[|[|[|[|[|[|[|n]]]]]]]]]]; try lia; cbn [group_bytes nth]; unfold group_bytes; cbn [nth]; lia.
Qed.

Lemma groups_short gs : Forall (fun g => (1 <= List.length g <= 9)%nat) gs ->
  (List.length (flat_map store_group gs) <= List.length (List.concat gs))%nat.
Proof.
  induction 1 as [|g gs H _ IH]; [reflexivity|]. cbn [flat_map List.concat]. rewrite !app_length.
  pose proof (group_short g H). lia.
Qed.

Lemma store_decimal_len neg gs : List.length (store_decimal neg gs) = List.length (flat_map store_group gs).
Proof. unfold store_decimal. destruct (flat_map store_group gs); cbn [List.length]; [reflexivity|]. rewrite map_length. reflexivity. Qed.

Lemma dec_text_long w n t k : dec_text w n t -> 0 <= k -> 10 ^ k <= n -> k < len t.
Proof.
  intros [Hd [E _]] Hk H. pose proof (dec_val_bound t Hd) as B. rewrite E in B.
  apply (Z.pow_lt_mono_r_iff 10); lia || (unfold len; lia).
Qed.

Lemma decimal_wrong neg di df gi gf t :
  digits di -> digits df -> di ++ df <> [] -> int_groups di gi -> frac_groups df gf ->
  decimal_text neg di df t -> store_decimal neg (gi ++ gf) <> t.
Proof.
  intros Hdi Hdf Hne [Ei [Gi Ti]] [Ef [Gf Tf]] [ti [Ht Et]] E.
  assert (G : Forall (fun g => (1 <= List.length g <= 9)%nat) (gi ++ gf)) by (apply Forall_app; split; assumption).
  assert (HL : (List.length t <= List.length di + List.length df)%nat).
  { rewrite <- E, store_decimal_len. etransitivity; [apply groups_short; exact G|].
    rewrite concat_app, app_length, <- Ei, <- Ef. lia. }
  assert (Hlt : (List.length (match df with [] => [] | _ => 46 :: map (fun d => d + 48) df end)%Z >= List.length df)%nat)
    by (destruct df; [cbn; lia|cbn [List.length map]; rewrite map_length; lia]).
  assert (HA : digits (List.concat (gi ++ gf))) by (rewrite concat_app, <- Ei, <- Ef; apply Forall_app; split; assumption).
  destruct (gi ++ gf) as [|g gs] eqn:Eg.
  { apply app_eq_nil in Eg. destruct Eg as [-> ->]. cbn in Ei, Ef. subst. exact (Hne eq_refl). }
  cbn [List.concat] in HA. apply Forall_app in HA. destruct HA as [Hg _].
  inversion G as [|x y Hgl Ggs]; subst x y.
  destruct (group_first g Hgl Hg) as [b [r [Eb [Bb H82]]]].
  unfold store_decimal in E. cbn [flat_map] in E. rewrite Eb in E. cbn [app] in E. cbv zeta beta in E.
  destruct Ht as [Td [Tv [Tl _]]]. destruct ti as [|c ti']; [cbn in Tl; lia|].
  inversion Td as [|x y Hc _]; subst x y. unfold digit in Hc.
  destruct neg; cbn [app] in Et; rewrite Et in E.
  - pose proof (f_equal (hd 0) E) as E1; cbn [hd app] in E1. assert (b = 82) by lia. destruct (H82 H) as [L2 V2].
    assert (Hlen : (List.length di <= List.length (c :: ti'))%nat).
    { destruct gi as [|g0 gi'].
      - cbn in Ei. subst di. cbn. lia.
      - cbn [app] in Eg. injection Eg as -> Egs. cbn [List.concat] in Ei.
        assert (Hv : 10 ^ (len di - 1) <= digits_val di).
        { rewrite digits_val_dec, Ei, map_app, dec_val_app, <- !digits_val_dec, V2.
          unfold len. rewrite map_length, app_length, L2.
          rewrite Ei in Hdi. apply Forall_app in Hdi. destruct Hdi as [_ Hdi'].
          pose proof (digits_val_bound _ Hdi').
          replace (Z.of_nat (2 + List.length (List.concat gi')) - 1) with (1 + Z.of_nat (List.length (List.concat gi'))) by lia.
          rewrite Z.pow_add_r by lia.
          assert (0 < 10 ^ Z.of_nat (List.length (List.concat gi'))) by (apply Z.pow_pos_nonneg; lia). lia. }
        assert (0 < len di) by (unfold len; rewrite Ei, app_length; lia).
        pose proof (dec_val_bound (c :: ti') Td) as B. rewrite Tv in B.
        assert (X : 10 ^ (len di - 1) < 10 ^ len (c :: ti')) by lia.
        apply Z.pow_lt_mono_r_iff in X; unfold len in *; lia. }
    rewrite Et in HL. cbn [List.length app] in HL, Hlen. rewrite app_length in HL. lia.
  - pose proof (f_equal (hd 0) E) as E1; cbn [hd app] in E1. lia.
Qed.

Lemma decimal_parsed rt bytes rest fx u b :
  ParseData rt DATA_FIXBINARY MYSQL_TYPE_NEWDECIMAL (bytes ++ rest) (len bytes) fx u b
  = ([bs "test MYSQL_TYPE_NEWDECIMAL"], Ok (VStr bytes, b)).
Proof.
  unfold ParseData.
  cbn [Z.eqb Pos.eqb DATA_VARCHAR DATA_CHAR DATA_FIXBINARY MYSQL_TYPE_TIME MYSQL_TYPE_TIMESTAMP MYSQL_TYPE_DATETIME MYSQL_TYPE_BIT MYSQL_TYPE_NEWDECIMAL].
  rewrite slice_to_app by reflexivity. reflexivity.
Qed.

(** Fractions of seconds *)
Lemma be_split a k n : be (a + k) n = be a (n / 256 ^ Z.of_nat k) ++ be k n.
Proof.
  revert n. induction k as [|k IH]; intro n.
  - rewrite Nat.add_0_r, Z.div_1_r. cbn [be]. rewrite app_nil_r. reflexivity.
  - replace (a + S k)%nat with (S (a + k)) by lia. cbn [be]. rewrite IH, app_assoc. f_equal. f_equal. f_equal.
    rewrite Z.div_div by (try apply Z.pow_nonzero; lia). f_equal. rewrite Nat2Z.inj_succ, Z.pow_succ_r by lia. reflexivity.
Qed.

Lemma frac_num_bound digits f : 1 <= digits <= 6 -> 0 <= f < 10 ^ digits ->
  0 <= frac_num digits f < 256 ^ Z.of_nat (frac_size digits) /\ (frac_num digits f = 0 <-> f = 0).
Proof.
  intros Hd Hf. unfold frac_num, frac_size.
  assert (C : digits = 1 \/ digits = 2 \/ digits = 3 \/ digits = 4 \/ digits = 5 \/ digits = 6) by lia.
  destruct C as [->|[->|[->|[->|[->| ->]]]]];
  match goal with |- context [256 ^ ?e] => let x := eval vm_compute in (256 ^ e) in change (256 ^ e) with x end;
  match type of Hf with _ <= _ < 10 ^ ?e => let x := eval vm_compute in (10 ^ e) in change (10 ^ e) with x in Hf end;
  match goal with |- context [?a mod 2 =? 1] => let x := eval vm_compute in (a mod 2 =? 1) in change (a mod 2 =? 1) with x end;
  cbv iota; lia.
Qed.

Lemma frac_len digits : 1 <= digits <= 6 -> forall f, len (store_frac digits f) = (digits + 1) / 2.
Proof. intros Hd f. unfold store_frac. rewrite len_be. unfold frac_size. lia. Qed.

Lemma time_frac_bytes neg h m s digits f : 0 <= h -> 0 <= m -> 0 <= s -> 1 <= digits <= 6 -> 0 <= f < 10 ^ digits ->
  exists r, store_time_frac neg h m s digits f = store_time neg h m (if neg && (0 <? f) then s + 1 else s) ++ r.
Proof.
  intros Hh Hm Hs Hd Hf. destruct (frac_num_bound digits f Hd Hf) as [B Z0].
  unfold store_time_frac, store_time. cbv zeta. eexists. rewrite be_split. f_equal. f_equal.
  set (k := 256 ^ Z.of_nat (frac_size digits)) in *. generalize dependent (frac_num digits f). intros q B Z0.
  destruct neg; cbn [andb].
  - destruct (Z.ltb_spec 0 f).
    + symmetry. apply (Z.div_unique _ _ _ (k - q)); lia.
    + symmetry. apply (Z.div_unique _ _ _ 0); lia.
  - symmetry. apply (Z.div_unique _ _ _ q); lia.
Qed.

Lemma timestamp_parse rt t rest : 0 <= t < 2 ^ 32 -> ParseTimeStamp rt (store_timestamp t ++ rest) = ParseTimeStamp rt (store_timestamp t).
Proof.
  intro Ht. unfold ParseTimeStamp. rewrite <- (app_nil_r (store_timestamp t)) at 2. unfold store_timestamp.
  rewrite !mrf4_app by (apply be_bytes || apply be_length). reflexivity.
Qed.

(** ENUM *)
Lemma member_spec members t : forall n, match member n members t with
  | Some j => exists i, j = n + Z.of_nat i /\ nth_error members i = Some t
  | None => ~ In t members
  end.
Proof.
  induction members as [|x r IH]; intro n; cbn [member]; [intros []|].
  destruct (list_eq_dec Z.eq_dec x t) as [->|Hx].
  - exists 0%nat. split; [lia|reflexivity].
  - specialize (IH (n + 1)). destruct (member (n + 1) r t) as [j|].
    + destruct IH as [i [-> E]]. exists (S i). split; [lia|exact E].
    + intros [->|H]; [exact (Hx eq_refl)|exact (IH H)].
Qed.

Lemma enum_back members t i : NoDup members -> 1 <= i <= Z.of_nat (List.length members) -> dec_text 1 i t ->
  (enum_denotes members t i <-> forall j, nth_error members j = Some t -> 1 + Z.of_nat j = i).
Proof.
  intros Hn Hi Ht. unfold enum_denotes. pose proof (member_spec members t 1) as H.
  destruct (member 1 members t) as [k|].
  - destruct H as [q [-> E]]. split.
    + intros -> j Ej. f_equal. f_equal. apply (NoDup_nth_error members); [exact Hn| |congruence].
      apply nth_error_Some. congruence.
    + intro A. symmetry. apply A. exact E.
  - split; [|intros _; split; assumption]. intros _ j Ej. exfalso. apply H. exact (nth_error_In _ _ Ej).
Qed.

(** Values that are dropped *)
Lemma nil_value rt ty mysql data fl fx u b : ~ In ty [1; 2; 3; 4; 5; 6; 9; 10; 12; 13] ->
  ParseData rt ty mysql data fl fx u b = ([], Ok (VNil, b)).
Proof.
  intro H. unfold ParseData. cbn [In] in H.
  repeat match goal with |- context [if ty =? ?c then _ else _] =>
    destruct (Z.eqb_spec ty c) as [e|_]; [unfold DATA_VARCHAR, DATA_CHAR, DATA_FIXBINARY, DATA_BINARY, DATA_INT, DATA_FLOAT, DATA_DOUBLE, DATA_DECIMAL, DATA_VARMYSQL, DATA_MYSQL, DATA_BLOB in e; try lia|] end;
  reflexivity.
Qed.

Lemma get_int_some fx d v : GetIntValue fx d = Ok v -> v <> VNil.
Proof.
  intros E ->. unfold GetIntValue in E.
  repeat match type of E with
  | (if ?c then _ else _) = _ => destruct c
  | bind ?r _ = _ => destruct r; cbn [bind] in E
  end; discriminate.
Qed.

Lemma nil_types rt ty mysql data fl fx u b :
  (exists o b', ParseData rt ty mysql data fl fx u b = (o, Ok (VNil, b'))) <-> ~ In ty [1; 2; 3; 4; 5; 6; 9; 10; 12; 13].
Proof.
  split; [|intro H; exists [], b; apply nil_value; exact H].
  intros [o [b' E]] H. unfold ParseData in E. cbv zeta in E.
  repeat match type of E with
  | (if ?c then _ else _) = _ => destruct c eqn:?
  end;
  try (apply pair_equal_spec in E; destruct E as [_ E]);
  repeat match type of E with
  | bind (bind ?r _) _ = _ => destruct r eqn:?; cbn [bind] in E
  | bind ?r _ = _ => destruct r eqn:?; cbn [bind] in E
  end; try discriminate E.
  all: try (injection E as -> _; eapply get_int_some; [eassumption|reflexivity]).
  all: cbn [In] in H; unfold DATA_VARCHAR, DATA_CHAR, DATA_FIXBINARY, DATA_BINARY, DATA_INT, DATA_FLOAT, DATA_DOUBLE, DATA_DECIMAL, DATA_VARMYSQL, DATA_MYSQL, DATA_BLOB in *; lia.
Qed.
