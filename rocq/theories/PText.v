(** Proofs about UTF-8 decoding, trimming and hex (GoBase.v, utils.go). *)
From Coq Require Import ZifyBool.
From Verif Require Import GoBase Utils SpecInno SpecText PBase.
Local Open Scope list_scope.
Ltac Zify.zify_post_hook ::= Z.div_mod_to_equations.

Lemma byte_check (f : Z -> bool) : forallb f (map Z.of_nat (seq 0 256)) = true ->
  forall b, is_byte b -> f b = true.
Proof.
  intros H b Hb. unfold is_byte in Hb. rewrite forallb_forall in H. apply H. apply in_map_iff.
  exists (Z.to_nat b). split; [lia|]. apply in_seq. lia.
Qed.
Lemma rune_start_spec b : is_byte b -> rune_start b = negb ((128 <=? b) && (b <=? 191)).
Proof.
  intro Hb. apply eqb_prop.
  apply (byte_check (fun b => Bool.eqb (rune_start b) (negb ((128 <=? b) && (b <=? 191))))); [reflexivity|exact Hb].
Qed.

Lemma utf8_len c : scalar c -> (1 <= List.length (utf8 c) <= 4)%nat.
Proof. intros _. unfold utf8. destruct (c <? 128); [cbn; lia|]. destruct (c <? 2048); [cbn; lia|]. destruct (c <? 65536); cbn; lia. Qed.

Lemma lor2 a b : 0 <= b < 64 -> Z.lor (Z.shiftl a 6) b = a * 64 + b.
Proof. intro H. apply (lor_shiftl a b 6); lia. Qed.
Lemma lor3 a b c : 0 <= b < 64 -> 0 <= c < 64 ->
  Z.lor (Z.lor (Z.shiftl a 12) (Z.shiftl b 6)) c = a * 4096 + b * 64 + c.
Proof.
  intros Hb Hc. rewrite (Z.shiftl_mul_pow2 b) by lia. rewrite (lor_shiftl a (b * 2 ^ 6) 12) by lia.
  replace (a * 2 ^ 12 + b * 2 ^ 6) with ((a * 64 + b) * 2 ^ 6) by lia. rewrite lor_mul by lia. lia.
Qed.
Lemma lor4 a b c d : 0 <= b < 64 -> 0 <= c < 64 -> 0 <= d < 64 ->
  Z.lor (Z.lor (Z.lor (Z.shiftl a 18) (Z.shiftl b 12)) (Z.shiftl c 6)) d
  = a * 262144 + b * 4096 + c * 64 + d.
Proof.
  intros Hb Hc Hd. rewrite (Z.shiftl_mul_pow2 b) by lia. rewrite (lor_shiftl a (b * 2 ^ 12) 18) by lia.
  replace (a * 2 ^ 18 + b * 2 ^ 12) with ((a * 64 + b) * 2 ^ 12) by lia.
  rewrite (Z.shiftl_mul_pow2 c) by lia. rewrite lor_mul by lia.
  replace ((a * 64 + b) * 2 ^ 12 + c * 2 ^ 6) with ((a * 4096 + b * 64 + c) * 2 ^ 6) by lia.
  rewrite lor_mul by lia. lia.
Qed.
Lemma l31 b : Z.land b 31 = b mod 32. Proof. exact (land_ones b 5 ltac:(lia)). Qed.
Lemma l15 b : Z.land b 15 = b mod 16. Proof. exact (land_ones b 4 ltac:(lia)). Qed.
Lemma l7 b : Z.land b 7 = b mod 8. Proof. exact (land_ones b 3 ltac:(lia)). Qed.
Lemma l63 b : Z.land b 63 = b mod 64. Proof. exact (land_ones b 6 ltac:(lia)). Qed.

Lemma decode_utf8 c rest : scalar c -> decode_rune (utf8 c ++ rest) = (c, List.length (utf8 c)).
Proof.
  unfold scalar, utf8. intro Hc.
  destruct (Z.ltb_spec c 128).
  { cbn. destruct (Z.ltb_spec c 128); [reflexivity|lia]. }
  destruct (Z.ltb_spec c 2048).
  { cbn [decode_rune app List.length]. unfold is_cont.
    replace (192 + c / 64 <? 128) with false by lia.
    replace ((192 <=? 192 + c / 64) && (192 + c / 64 <? 224)) with true by lia.
    replace ((128 <=? 128 + c mod 64) && (128 + c mod 64 <=? 191)) with true by lia.
    rewrite l31, l63, lor2 by lia.
    replace (((192 + c / 64) mod 32) * 64 + (128 + c mod 64) mod 64) with c by lia.
    destruct (Z.ltb_spec 127 c); [reflexivity|lia]. }
  destruct (Z.ltb_spec c 65536).
  { cbn [decode_rune app List.length]. unfold is_cont.
    replace (224 + c / 4096 <? 128) with false by lia.
    replace ((192 <=? 224 + c / 4096) && (224 + c / 4096 <? 224)) with false by lia.
    replace ((224 <=? 224 + c / 4096) && (224 + c / 4096 <? 240)) with true by lia.
    replace ((128 <=? 128 + c / 64 mod 64) && (128 + c / 64 mod 64 <=? 191)
             && ((128 <=? 128 + c mod 64) && (128 + c mod 64 <=? 191))) with true by lia.
    rewrite l15, !l63, lor3 by lia.
    replace (((224 + c / 4096) mod 16) * 4096 + ((128 + c / 64 mod 64) mod 64) * 64 + (128 + c mod 64) mod 64) with c by lia.
    replace ((2047 <? c) && negb ((55296 <=? c) && (c <=? 57343))) with true by lia. reflexivity. }
  { cbn [decode_rune app List.length]. unfold is_cont.
    replace (240 + c / 262144 <? 128) with false by lia.
    replace ((192 <=? 240 + c / 262144) && (240 + c / 262144 <? 224)) with false by lia.
    replace ((224 <=? 240 + c / 262144) && (240 + c / 262144 <? 240)) with false by lia.
    replace ((240 <=? 240 + c / 262144) && (240 + c / 262144 <? 248)) with true by lia.
    replace ((128 <=? 128 + c / 4096 mod 64) && (128 + c / 4096 mod 64 <=? 191)
             && ((128 <=? 128 + c / 64 mod 64) && (128 + c / 64 mod 64 <=? 191))
             && ((128 <=? 128 + c mod 64) && (128 + c mod 64 <=? 191))) with true by lia.
    rewrite l7, !l63, lor4 by lia.
    replace (((240 + c / 262144) mod 8) * 262144 + ((128 + c / 4096 mod 64) mod 64) * 4096
             + ((128 + c / 64 mod 64) mod 64) * 64 + (128 + c mod 64) mod 64) with c by lia.
    replace ((65535 <? c) && (c <=? 1114111)) with true by lia. reflexivity. }
Qed.

(** Decoding either finds the encoding of a scalar or reports an error of width 1. *)
Lemma decode_cases s r w : all_bytes s -> s <> [] -> decode_rune s = (r, w) ->
  (r = 65533 /\ w = 1%nat) \/
  (scalar r /\ w = List.length (utf8 r) /\ exists t, s = utf8 r ++ t).
Proof.
  intros Hb Hne. destruct s as [|b0 t]; [contradiction|]. inversion Hb as [|? ? Hb0 Ht]; subst.
  unfold is_byte in Hb0. cbn [decode_rune]. unfold is_cont.
  destruct (Z.ltb_spec b0 128).
  { intro E. injection E as <- <-. right. unfold scalar, utf8.
    destruct (Z.ltb_spec b0 128); [|lia]. split; [lia|]. split; [reflexivity|]. now exists t. }
  destruct ((192 <=? b0) && (b0 <? 224)) eqn:C2.
  { destruct t as [|b1 t]; [intro E; injection E as <- <-; now left|].
    inversion Ht as [|? ? Hb1 Ht']; subst. unfold is_byte in Hb1.
    destruct ((128 <=? b1) && (b1 <=? 191)) eqn:C; [|intro E; injection E as <- <-; now left].
    rewrite l31, l63, lor2 by lia.
    destruct (Z.ltb_spec 127 (b0 mod 32 * 64 + b1 mod 64)); [|intro E; injection E as <- <-; now left].
    intro E. injection E as <- <-. right. unfold scalar, utf8.
    set (q := b0 mod 32 * 64 + b1 mod 64) in *.
    destruct (Z.ltb_spec q 128); [lia|]. destruct (Z.ltb_spec q 2048); [|lia].
    split; [lia|]. split; [reflexivity|]. exists t. cbn [app]. f_equal; [lia|f_equal; lia]. }
  destruct ((224 <=? b0) && (b0 <? 240)) eqn:C3.
  { destruct t as [|b1 [|b2 t]]; try (intro E; injection E as <- <-; now left).
    inversion Ht as [|? ? Hb1 Ht']; subst. inversion Ht' as [|? ? Hb2 Ht'']; subst. unfold is_byte in *.
    destruct ((128 <=? b1) && (b1 <=? 191) && ((128 <=? b2) && (b2 <=? 191))) eqn:C; [|intro E; injection E as <- <-; now left].
    rewrite l15, !l63, lor3 by lia.
    set (q := b0 mod 16 * 4096 + b1 mod 64 * 64 + b2 mod 64) in *.
    destruct ((2047 <? q) && negb ((55296 <=? q) && (q <=? 57343))) eqn:D; [|intro E; injection E as <- <-; now left].
    intro E. injection E as <- <-. right. unfold scalar, utf8.
    destruct (Z.ltb_spec q 128); [lia|]. destruct (Z.ltb_spec q 2048); [lia|]. destruct (Z.ltb_spec q 65536); [|lia].
    split; [lia|]. split; [reflexivity|]. exists t. cbn [app]. f_equal; [lia|f_equal; [lia|f_equal; lia]]. }
  destruct ((240 <=? b0) && (b0 <? 248)) eqn:C4; [|intro E; injection E as <- <-; now left].
  destruct t as [|b1 [|b2 [|b3 t]]]; try (intro E; injection E as <- <-; now left).
  inversion Ht as [|? ? Hb1 Ht']; subst. inversion Ht' as [|? ? Hb2 Ht'']; subst.
  inversion Ht'' as [|? ? Hb3 Ht3]; subst. unfold is_byte in *.
  destruct ((128 <=? b1) && (b1 <=? 191) && ((128 <=? b2) && (b2 <=? 191)) && ((128 <=? b3) && (b3 <=? 191))) eqn:C;
    [|intro E; injection E as <- <-; now left].
  rewrite l7, !l63, lor4 by lia.
  set (q := b0 mod 8 * 262144 + b1 mod 64 * 4096 + b2 mod 64 * 64 + b3 mod 64) in *.
  destruct ((65535 <? q) && (q <=? 1114111)) eqn:D; [|intro E; injection E as <- <-; now left].
  intro E. injection E as <- <-. right. unfold scalar, utf8.
  destruct (Z.ltb_spec q 128); [lia|]. destruct (Z.ltb_spec q 2048); [lia|]. destruct (Z.ltb_spec q 65536); [lia|].
  split; [lia|]. split; [reflexivity|]. exists t. cbn [app]. f_equal; [lia|f_equal; [lia|f_equal; [lia|f_equal; lia]]].
Qed.

Lemma is_space_white c : is_space c = true <-> white c.
Proof.
  unfold white. split.
  - unfold is_space. rewrite !orb_true_iff, !andb_true_iff, !Z.leb_le, !Z.eqb_eq. intro H.
    cbn [In]. lia.
  - intro H. cbn [In] in H. repeat (destruct H as [<-|H]; [reflexivity|]). contradiction.
Qed.
Lemma white_scalar c : white c -> scalar c.
Proof. intro H. apply is_space_white in H. unfold is_space, scalar in *. lia. Qed.

(** * TrimSpace *)
Lemma trim_left_infix f : forall s, all_bytes s -> (List.length s <= f)%nat ->
  exists l, Forall white l /\ s = flat_map utf8 l ++ trim_left_aux f s.
Proof.
  induction f as [|f IH]; intros s Hb Hl.
  { exists []. split; [constructor|reflexivity]. }
  cbn [trim_left_aux]. destruct s as [|b t]; [exists []; split; [constructor|reflexivity]|].
  destruct (decode_rune (b :: t)) as [r w] eqn:E.
  destruct (is_space r) eqn:Es; [|exists []; split; [constructor|reflexivity]].
  destruct (decode_cases (b :: t) r w Hb ltac:(discriminate) E) as [[-> _]|[Hsc [-> [t' Et]]]]; [discriminate Es|].
  rewrite Et in *. rewrite skipn_app_len.
  apply all_bytes_app in Hb. pose proof (utf8_len r Hsc). rewrite app_length in Hl.
  destruct (IH t' (proj2 Hb) ltac:(lia)) as [l [Hw El]].
  exists (r :: l). split; [constructor; [now apply is_space_white|exact Hw]|].
  cbn [flat_map]. rewrite <- app_assoc, <- El. reflexivity.
Qed.

Lemma decode_last_cases s r w : all_bytes s -> s <> [] -> decode_last_rune (rev s) = (r, w) ->
  (r = 65533 /\ w = 1%nat) \/
  (scalar r /\ w = List.length (utf8 r) /\ exists t, s = t ++ utf8 r).
Proof.
  intros Hb Hne. unfold decode_last_rune. destruct (rev s) as [|b rs] eqn:Er.
  { apply (f_equal (@rev Z)) in Er. rewrite rev_involutive in Er. now rewrite Er in Hne. }
  assert (Es : s = rev rs ++ [b]). { rewrite <- (rev_involutive s), Er. reflexivity. }
  destruct (Z.ltb_spec b 128).
  { intro E. injection E as <- <-. right. rewrite Es in Hb. apply all_bytes_app in Hb. destruct Hb as [_ Hb].
    inversion Hb as [|? ? Hb0]; subst. unfold is_byte in Hb0. unfold scalar, utf8.
    destruct (Z.ltb_spec b 128); [|lia]. split; [lia|]. split; [reflexivity|]. eexists. reflexivity. }
  match goal with |- (let '(_, _) := decode_rune (rev (firstn ?k0 _)) in _) = _ -> _ => set (k := k0) end.
  set (x := rev (firstn k (b :: rs))).
  destruct (decode_rune x) as [r0 n] eqn:Ed. destruct (Nat.eqb_spec n (List.length x)) as [En|En];
    [|intro E; injection E as <- <-; now left].
  intro E. injection E as <- <-.
  assert (Hx : s = rev (skipn k (b :: rs)) ++ x).
  { unfold x. rewrite <- rev_app_distr, firstn_skipn, <- Er, rev_involutive. reflexivity. }
  assert (Hbx : all_bytes x). { rewrite Hx in Hb. apply all_bytes_app in Hb. tauto. }
  destruct x as [|x0 x'] eqn:Ex.
  { cbn in Ed. injection Ed as <- <-. cbn in En.
    exfalso. unfold x in Ex. apply (f_equal (@List.length Z)) in Ex. rewrite rev_length, firstn_length in Ex. cbn in Ex.
    assert (k <> 0)%nat; [|lia].
    unfold k. destruct rs as [|c1 rs]; [lia|]. destruct (rune_start c1); [lia|]. destruct rs as [|c2 rs]; [lia|].
    destruct (rune_start c2); [lia|]. destruct rs as [|c3 rs]; [lia|]. destruct (rune_start c3); lia. }
  destruct (decode_cases (x0 :: x') r0 n Hbx ltac:(discriminate) Ed) as [[-> ->]|[Hsc [Hn [t Et]]]]; [now left|].
  right. split; [exact Hsc|]. split; [exact Hn|]. exists (rev (skipn k (b :: rs))). rewrite Hx. f_equal.
  rewrite Et. assert (t = []); [|subst; now rewrite app_nil_r].
  apply (f_equal (@List.length Z)) in Et. rewrite app_length in Et. destruct t; [reflexivity|cbn in Et; cbn in En; lia].
Qed.

Lemma trim_right_infix f : forall s, all_bytes s -> (List.length s <= f)%nat ->
  exists l, Forall white l /\ s = rev (trim_right_aux f (rev s)) ++ flat_map utf8 l.
Proof.
  induction f as [|f IH]; intros s Hb Hl.
  { exists []. split; [constructor|]. cbn. now rewrite rev_involutive, app_nil_r. }
  cbn [trim_right_aux]. destruct (rev s) as [|b t] eqn:Er.
  { exists []. split; [constructor|]. apply (f_equal (@rev Z)) in Er. rewrite rev_involutive in Er. now rewrite Er. }
  assert (Hne : s <> []). { intros ->. discriminate Er. }
  rewrite <- Er. destruct (decode_last_rune (rev s)) as [r w] eqn:E.
  destruct (is_space r) eqn:Es; [|exists []; split; [constructor|]; cbn; now rewrite rev_involutive, app_nil_r].
  destruct (decode_last_cases s r w Hb Hne E) as [[-> _]|[Hsc [-> [t' Et]]]]; [discriminate Es|].
  rewrite Et, rev_app_distr. rewrite <- (rev_length (utf8 r)), skipn_app_len.
  rewrite Et in Hb, Hl. apply all_bytes_app in Hb. pose proof (utf8_len r Hsc). rewrite app_length in Hl.
  destruct (IH t' (proj1 Hb) ltac:(lia)) as [l [Hw El]].
  exists (l ++ [r]). split; [apply Forall_app; split; [exact Hw|constructor; [now apply is_space_white|constructor]]|].
  rewrite flat_map_app. cbn [flat_map]. rewrite app_nil_r, app_assoc, <- El. reflexivity.
Qed.

Lemma trim_space_infix s : all_bytes s ->
  exists l r, Forall white l /\ Forall white r /\ s = flat_map utf8 l ++ trim_space s ++ flat_map utf8 r.
Proof.
  intro Hb. unfold trim_space, trim_right, trim_left.
  destruct (trim_left_infix (List.length s) s Hb (le_n _)) as [l [Hl El]].
  set (x := trim_left_aux (List.length s) s) in *.
  assert (Hx : all_bytes x). { rewrite El in Hb. apply all_bytes_app in Hb. tauto. }
  destruct (trim_right_infix (List.length x) x Hx (le_n _)) as [r [Hr Er]].
  exists l, r. split; [exact Hl|]. split; [exact Hr|]. rewrite <- Er. exact El.
Qed.

Lemma decode_last_utf8 c rest : scalar c -> all_bytes rest ->
  decode_last_rune (rev (utf8 c) ++ rest) = (c, List.length (utf8 c)).
Proof.
  intros Hc Hb. pose proof (decode_utf8 c [] Hc) as D. rewrite app_nil_r in D. revert D.
  unfold scalar in Hc. unfold utf8.
  destruct (Z.ltb_spec c 128).
  { intros _. cbn. destruct (Z.ltb_spec c 128); [reflexivity|lia]. }
  destruct (Z.ltb_spec c 2048).
  { intro D. cbn [rev app decode_last_rune]. replace (128 + c mod 64 <? 128) with false by lia.
    rewrite rune_start_spec by (unfold is_byte; lia).
    replace (negb ((128 <=? 192 + c / 64) && (192 + c / 64 <=? 191))) with true by lia.
    cbn [firstn rev app]. rewrite D. reflexivity. }
  destruct (Z.ltb_spec c 65536).
  { intro D. cbn [rev app decode_last_rune]. replace (128 + c mod 64 <? 128) with false by lia.
    rewrite !rune_start_spec by (unfold is_byte; lia).
    replace (negb ((128 <=? 128 + c / 64 mod 64) && (128 + c / 64 mod 64 <=? 191))) with false by lia.
    replace (negb ((128 <=? 224 + c / 4096) && (224 + c / 4096 <=? 191))) with true by lia.
    cbn [firstn rev app]. rewrite D. reflexivity. }
  intro D. cbn [rev app decode_last_rune]. replace (128 + c mod 64 <? 128) with false by lia.
  rewrite !rune_start_spec by (unfold is_byte; lia).
  replace (negb ((128 <=? 128 + c / 64 mod 64) && (128 + c / 64 mod 64 <=? 191))) with false by lia.
  replace (negb ((128 <=? 128 + c / 4096 mod 64) && (128 + c / 4096 mod 64 <=? 191))) with false by lia.
  replace (negb ((128 <=? 240 + c / 262144) && (240 + c / 262144 <=? 191))) with true by lia.
  cbn [firstn rev app]. rewrite D. reflexivity.
Qed.


Lemma trim_right_pad n : forall f s, (n <= f)%nat ->
  trim_right_aux f (repeat 32 n ++ s) = trim_right_aux (f - n) s.
Proof.
  induction n as [|n IH]; intros f s Hf; [now rewrite Nat.sub_0_r|]. destruct f as [|f]; [lia|].
  cbn [repeat app trim_right_aux]. change (decode_last_rune (32 :: repeat 32 n ++ s)) with (32, 1%nat).
  change (is_space 32) with true. cbn [skipn]. rewrite IH by lia. now rewrite Nat.sub_succ.
Qed.
Lemma trim_left_pad n : forall f, (n <= f)%nat -> trim_left_aux f (repeat 32 n) = [].
Proof.
  induction n as [|n IH]; intros f Hf; [now destruct f|]. destruct f as [|f]; [lia|].
  cbn [repeat trim_left_aux]. change (decode_rune (32 :: repeat 32 n)) with (32, 1%nat).
  change (is_space 32) with true. cbn [skipn]. apply IH. lia.
Qed.
Lemma repeat_rev {A} (x : A) n : rev (repeat x n) = repeat x n.
Proof. induction n as [|n IH]; [reflexivity|]. cbn [repeat rev]. rewrite IH, repeat_cons. reflexivity. Qed.

Lemma trim_space_pad_empty n : trim_space (repeat 32 n) = [].
Proof. unfold trim_space, trim_left. rewrite repeat_length, trim_left_pad by lia. reflexivity. Qed.
Lemma trim_left_same f s : all_bytes s -> ~ starts_white s -> trim_left_aux f s = s.
Proof.
  intros Hb Hw. destruct f as [|f]; [reflexivity|]. cbn [trim_left_aux]. destruct s as [|b t]; [reflexivity|].
  destruct (decode_rune (b :: t)) as [r w] eqn:E. destruct (is_space r) eqn:Es; [|reflexivity].
  destruct (decode_cases (b :: t) r w Hb ltac:(discriminate) E) as [[-> _]|[_ [_ [t' Et]]]]; [discriminate Es|].
  destruct Hw. exists r, t'. split; [now apply is_space_white|exact Et].
Qed.
Lemma trim_right_same f s : all_bytes s -> ~ ends_white s -> trim_right_aux f (rev s) = rev s.
Proof.
  intros Hb Hw. destruct f as [|f]; [reflexivity|]. cbn [trim_right_aux]. destruct (rev s) as [|b t] eqn:Er; [reflexivity|].
  assert (Hne : s <> []) by (intros ->; discriminate Er). rewrite <- Er.
  destruct (decode_last_rune (rev s)) as [r w] eqn:E. destruct (is_space r) eqn:Es; [|reflexivity].
  destruct (decode_last_cases s r w Hb Hne E) as [[-> _]|[_ [_ [t' Et]]]]; [discriminate Es|].
  destruct Hw. exists r, t'. split; [now apply is_space_white|exact Et].
Qed.
Lemma trim_left_none f : forall s, all_bytes s -> (List.length s <= f)%nat -> ~ starts_white (trim_left_aux f s).
Proof.
  induction f as [|f IH]; intros s Hb Hl.
  { destruct s; [|cbn in Hl; lia]. cbn. intros [c [t [Hw E]]]. pose proof (utf8_len c (white_scalar c Hw)). apply (f_equal (@List.length Z)) in E. rewrite app_length in E. cbn in E. lia. }
  cbn [trim_left_aux]. destruct s as [|b t].
  { intros [c [t [Hw E]]]. pose proof (utf8_len c (white_scalar c Hw)). apply (f_equal (@List.length Z)) in E. rewrite app_length in E. cbn in E. lia. }
  destruct (decode_rune (b :: t)) as [r w] eqn:E. destruct (is_space r) eqn:Es.
  - destruct (decode_cases (b :: t) r w Hb ltac:(discriminate) E) as [[-> _]|[Hsc [-> [t' Et]]]]; [discriminate Es|].
    rewrite Et in *. rewrite skipn_app_len. apply all_bytes_app in Hb. pose proof (utf8_len r Hsc). rewrite app_length in Hl. apply IH; [tauto|lia].
  - intros [c [t' [Hw Et]]]. rewrite Et, decode_utf8 in E by now apply white_scalar. injection E as <- _. apply is_space_white in Hw. congruence.
Qed.
Lemma trim_right_none f : forall s, all_bytes s -> (List.length s <= f)%nat -> ~ ends_white (rev (trim_right_aux f (rev s))).
Proof.
  assert (Z0 : ~ ends_white []).
  { intros [c [t [Hw E]]]. pose proof (utf8_len c (white_scalar c Hw)). apply (f_equal (@List.length Z)) in E. rewrite app_length in E. cbn in E. lia. }
  induction f as [|f IH]; intros s Hb Hl.
  { destruct s; [|cbn in Hl; lia]. exact Z0. }
  cbn [trim_right_aux]. destruct (rev s) as [|b t] eqn:Er; [exact Z0|].
  assert (Hne : s <> []) by (intros ->; discriminate Er). rewrite <- Er.
  destruct (decode_last_rune (rev s)) as [r w] eqn:E. destruct (is_space r) eqn:Es.
  - destruct (decode_last_cases s r w Hb Hne E) as [[-> _]|[Hsc [-> [t' Et]]]]; [discriminate Es|].
    rewrite Et, rev_app_distr. rewrite <- (rev_length (utf8 r)), skipn_app_len.
    rewrite Et in Hb, Hl. apply all_bytes_app in Hb. pose proof (utf8_len r Hsc). rewrite app_length in Hl. apply IH; [tauto|lia].
  - rewrite rev_involutive. intros [c [t' [Hw Et]]]. rewrite Et, rev_app_distr in E. rewrite decode_last_utf8 in E.
    + injection E as <- _. apply is_space_white in Hw. congruence.
    + now apply white_scalar.
    + rewrite Et in Hb. apply all_bytes_app in Hb as [Hb _]. unfold all_bytes in *. now apply Forall_rev.
Qed.
(** a character that starts before the padding ends before it *)
Lemma white_in_body c body n t : body <> [] -> white c -> body ++ repeat 32 n = utf8 c ++ t -> exists t', body = utf8 c ++ t'.
Proof.
  intros Hne Hw E. destruct body as [|b0 body]; [contradiction|].
  assert (S1 : forall x, In x (tl (utf8 c)) -> 128 <= x).
  { unfold white in Hw. cbn [In] in Hw. repeat (destruct Hw as [<-|Hw]; [cbn [utf8 Z.ltb Z.compare Pos.compare Pos.compare_cont tl]; intros x Hx; vm_compute in Hx; repeat (destruct Hx as [<-|Hx]; [lia|]); contradiction|]). contradiction. }
  destruct (utf8 c) as [|u0 u] eqn:Eu; [pose proof (utf8_len c (white_scalar c Hw)) as L; rewrite Eu in L; cbn in L; lia|].
  cbn [tl] in S1. cbn [app] in E. injection E as -> E. clear Hw Eu Hne.
  enough (H : exists t', body = u ++ t') by (destruct H as [t' ->]; exists t'; reflexivity).
  revert u t S1 E. induction body as [|b body IH]; intros u t S1 E.
  - destruct u as [|x u]; [exists []; reflexivity|]. destruct n as [|n]; [discriminate E|]. cbn [app repeat] in E. injection E as Ex _. specialize (S1 x (or_introl eq_refl)). lia.
  - destruct u as [|x u]; [exists (b :: body); reflexivity|]. cbn [app] in E. injection E as -> E. destruct (IH u t) as [t' ->]; [intros y Hy; apply S1; now right|exact E|]. exists t'. reflexivity.
Qed.
(** what TrimSpace does to a padded text *)
Lemma trim_space_exact body n : all_bytes body -> (trim_space (body ++ repeat 32 n) = body <-> tight body).
Proof.
  intro Hb. assert (Hbn : all_bytes (body ++ repeat 32 n)).
  { apply all_bytes_app. split; [exact Hb|]. apply Forall_forall. intros x Hx. apply repeat_spec in Hx as ->. unfold is_byte. lia. }
  split.
  - intro E. unfold trim_space, trim_right, trim_left in E.
    destruct (trim_left_infix (List.length (body ++ repeat 32 n)) _ Hbn (le_n _)) as [l [_ El]].
    pose proof (trim_left_none (List.length (body ++ repeat 32 n)) _ Hbn (le_n _)) as NL.
    set (x := trim_left_aux (List.length (body ++ repeat 32 n)) (body ++ repeat 32 n)) in *.
    assert (Hx : all_bytes x) by (rewrite El in Hbn; apply all_bytes_app in Hbn; tauto).
    pose proof (trim_right_none (List.length x) x Hx (le_n _)) as NR. destruct (trim_right_infix (List.length x) x Hx (le_n _)) as [r [_ Er]]. rewrite E in NR, Er.
    split; [|exact NR]. intros [c [t [Hw Et]]]. apply NL. exists c, (t ++ flat_map utf8 r). split; [exact Hw|]. rewrite Er, Et, <- app_assoc. reflexivity.
  - intros [H1 H2]. destruct body as [|b body]; [exact (trim_space_pad_empty n)|]. unfold trim_space, trim_left.
    rewrite trim_left_same; [|exact Hbn|].
    2:{ intros [c [t [Hw Et]]]. destruct (white_in_body c (b :: body) n t ltac:(discriminate) Hw Et) as [t' Et']. apply H1. now exists c, t'. }
    unfold trim_right. rewrite rev_app_distr, repeat_rev, trim_right_pad by (rewrite app_length, repeat_length; lia).
    rewrite trim_right_same by assumption. apply rev_involutive.
Qed.

(** * Hex *)
Lemma unhex_blob d : all_bytes d -> unhex (ParseBlob d) = Some d.
Proof.
  induction d as [|v d IH]; intro Hb; [reflexivity|]. inversion Hb as [|? ? Hv Hd]; subst. unfold is_byte in Hv.
  unfold ParseBlob. cbn [flat_map app]. fold (ParseBlob d). cbn [unhex].
  assert (Hh : forall x, 0 <= x < 16 -> hex_val (hex_digit x) = Some x).
  { intros x Hx. unfold hex_val, hex_digit. destruct (Z.ltb_spec x 10).
    - replace ((48 <=? 48 + x) && (48 + x <=? 57)) with true by lia. f_equal. lia.
    - replace ((48 <=? 87 + x) && (87 + x <=? 57)) with false by lia.
      replace ((97 <=? 87 + x) && (87 + x <=? 102)) with true by lia. f_equal. lia. }
  rewrite l15, Z.shiftr_div_pow2 by lia. change (2 ^ 4) with 16.
  rewrite !Hh by lia. rewrite (IH Hd). do 2 f_equal. lia.
Qed.
