(** Lemmas for the text of the statements and for character sets. *)
From Coq Require Import String ZifyBool.
From Verif Require Import GoBase Utils Ibdata SpecInno SpecText SpecSql SpecRecord SpecRow SpecPage SpecChars PBase PValue PText PRec PSql PFile.
Local Open Scope string_scope.
Local Open Scope list_scope.
Local Open Scope Z_scope.

(** * The text of a statement *)
Lemma spell_esc c : esc1 c = spell c.
Proof.
  unfold esc1, esc_of, spell. repeat (eqcase; [subst; reflexivity|]). reflexivity.
Qed.
Lemma spell_all s : flat_map esc1 s = flat_map spell s.
Proof. induction s as [|c s IH]; [reflexivity|]. cbn [flat_map]. now rewrite spell_esc, IH. Qed.
Lemma escape_spelled s : all_bytes s -> s <> txt "0001-01-01T00:00:00Z" -> EscapeValue s = flat_map spell s.
Proof. intros Hb Hm. rewrite escape_not_magic; [apply spell_all|exact Hb|exact Hm]. Qed.
Lemma hex_plain h b : unhex h = Some b -> EscapeValue h = h.
Proof.
  intro Hh. destruct (hex_facts h b Hh) as [R1 [R2 R3]]. rewrite escape_not_magic by assumption. apply esc1_id. pose proof (hex_chars h b Hh) as Hc.
  eapply Forall_impl; [|exact Hc]. intros c H. destruct (esc_cases c) as [[e [He _]]|[He _]]; [|exact He]. exfalso. apply H. clear H. revert He. unfold esc_of.
  repeat (eqcase; [subst; reflexivity|]). discriminate.
Qed.
Lemma column_written rt c v : stands_for rt c v -> readable v -> written v (column_text rt c).
Proof.
  intros H Hr. destruct H as [c Hv Hb|c t Ht Hb Hn|c h b Hv Hh Hb Hn|c n Hv Hb Hn].
  - rewrite column_text_null; [|apply is_null_spec; exact Hv|exact Hb]. destruct (c_binary c); [apply w_no_bytes|apply w_null].
  - destruct Hr as [R1 [R2 R3]]. destruct (text_of_fmt rt _ _ Ht) as [E Hnil].
    rewrite column_text_plain; [|apply not_true_iff_false; rewrite is_null_spec; intros [X|X]|exact Hb|exact Hn].
    + rewrite E, escape_spelled by assumption. apply (w_str t).
    + contradiction.
    + rewrite X in E. cbn in E. now subst.
  - destruct (hex_facts h b Hh) as [R1 [R2 R3]]. unfold column_text, is_bit in *.
    destruct (Z.eqb_spec (c_mysql c) MYSQL_TYPE_BIT); [contradiction|]. rewrite Hv, Hn.
    replace (is_null_value (VStr h)) with false.
    2:{ symmetry. apply not_true_iff_false. rewrite is_null_spec. intros [X|X]; [discriminate|]. injection X as X. contradiction. }
    cbn [negb fmt_v]. rewrite (hex_plain h b Hh), <- !app_assoc. exact (w_bytes b h Hh).
  - unfold column_text, is_bit in *. rewrite Hb, Hv, Hn. destruct Hr as [-> | ->]; [apply (w_bit 0)|apply (w_bit 1)]; lia.
Qed.
Lemma columns_written rt cs vs : Forall2 (fun c v => stands_for rt c v /\ readable v) cs vs -> Forall (fun c => user c = true) cs ->
  exists ts, Forall2 written vs ts /\ columns_text rt true cs = listed ts /\ (cs <> [] -> columns_text rt false cs = txt "," ++ listed ts).
Proof.
  induction 1 as [|c v cs vs [H1 H2] H IH]; intro Hu.
  - exists []. split; [constructor|]. split; [reflexivity|]. intro X. contradiction.
  - inversion Hu as [|? ? U1 U2]; subst. destruct (IH U2) as [ts [T1 [T2 T3]]]. exists (column_text rt c :: ts).
    unfold user in U1. apply negb_true_iff in U1.
    assert (E : column_text rt c ++ columns_text rt false cs = listed (column_text rt c :: ts)).
    { destruct cs as [|c' cs]; inversion H; subst; inversion T1; subst; [cbn; apply app_nil_r|]. rewrite T3 by discriminate. reflexivity. }
    split; [constructor; [now apply column_written|exact T1]|]. cbn [columns_text]. rewrite U1. split; [exact E|]. intros _. rewrite <- E. reflexivity.
Qed.
Lemma said_written rt db tb vs line : said rt db tb vs line -> exists ts, Forall2 written vs ts /\ line = statement db tb ts.
Proof.
  intros [row [row' [H1 [H2 [H3 ->]]]]]. pose proof (shown_columns rt row vs H1 row' H3) as HS.
  destruct (columns_written rt (filter user row') vs HS) as [ts [T1 [T2 _]]].
  { apply Forall_forall. intros x Hx. apply filter_In in Hx. tauto. }
  exists ts. split; [exact T1|]. unfold replace_statement, statement, heading. rewrite columns_text_user, T2. rewrite <- !app_assoc. reflexivity.
Qed.

(** * UTF-8 and sets of one byte *)
Lemma utf8_size c : 0 <= c -> (1 <= List.length (utf8 c))%nat /\ (128 <= c -> (2 <= List.length (utf8 c))%nat).
Proof. intro H. unfold utf8. destruct (Z.ltb_spec c 0x80); [cbn [List.length]; lia|]. destruct (Z.ltb_spec c 0x800); [cbn [List.length]; lia|]. destruct (Z.ltb_spec c 0x10000); cbn [List.length]; lia. Qed.
Lemma utf8_long t : Forall (fun c => 0 <= c) t -> (List.length t <= List.length (flat_map utf8 t))%nat
  /\ (List.length (flat_map utf8 t) = List.length t -> Forall (fun c => c < 128) t).
Proof.
  induction 1 as [|c t Hc _ [IH1 IH2]]; [split; [cbn; lia|constructor]|]. cbn [flat_map List.length]. rewrite app_length. destruct (utf8_size c Hc) as [U1 U2].
  split; [lia|]. intro E. destruct (Z_lt_dec c 128) as [L|L]; [constructor; [exact L|apply IH2; lia]|]. specialize (U2 ltac:(lia)). lia.
Qed.
Lemma utf8_ascii t : Forall (fun c => 0 <= c < 128) t -> flat_map utf8 t = t.
Proof. induction 1 as [|c t Hc _ IH]; [reflexivity|]. cbn [flat_map]. rewrite IH. unfold utf8. destruct (Z.ltb_spec c 0x80); [reflexivity|lia]. Qed.
Lemma one_byte_utf8 table t : extends_ascii table -> Forall (fun c => 0 <= c) t ->
  (map table t = flat_map utf8 t <-> Forall (fun c => c < 128) t).
Proof.
  intros He Ht. split.
  - intro E. apply (utf8_long t Ht). rewrite <- E. apply map_length.
  - intro Hs. assert (H : Forall (fun c => 0 <= c < 128) t) by (apply Forall_forall; intros c Hc; rewrite Forall_forall in Ht, Hs; specialize (Ht c Hc); specialize (Hs c Hc); lia).
    rewrite utf8_ascii by exact H. clear - He H. induction H as [|c t Hc _ IH]; [reflexivity|]. cbn [map]. now rewrite IH, He.
Qed.
Lemma ucs2_size t : List.length (flat_map (be 2) t) = (2 * List.length t)%nat.
Proof. induction t as [|c t IH]; [reflexivity|]. cbn [flat_map]. rewrite app_length, IH. cbn [be List.length app]. lia. Qed.

(** * Sets of two bytes *)
Lemma pair_low pair c d : two_byte pair -> c < 128 -> pair c d = false.
Proof. intros HP Hc. destruct (pair c d) eqn:E; [|reflexivity]. apply HP in E. lia. Qed.
Lemma spell_char_cases c : (exists e, spell c = [92; e] /\ unescape e = [c]) \/ (spell c = [c] /\ c <> 39 /\ c <> 92).
Proof.
  rewrite <- spell_esc. unfold esc1. destruct (esc_cases c) as [[e [He Hu]]|[He H]]; rewrite He; [left; exists e; auto|right; auto].
Qed.
Definition then_read (front : list Z) (rest : option (list Z * list Z)) := match rest with Some (v, k) => Some (front ++ v, k) | None => None end.
Lemma spell_other c : c <> 0 -> c <> 10 -> c <> 13 -> c <> 26 -> c <> 34 -> c <> 39 -> c <> 92 -> spell c = [c].
Proof.
  intros. unfold spell. replace (c =? 0) with false by lia. replace (c =? 10) with false by lia. replace (c =? 13) with false by lia. replace (c =? 26) with false by lia.
  replace (c =? 34) with false by lia. replace (c =? 39) with false by lia. replace (c =? 92) with false by lia. reflexivity.
Qed.
Lemma wide_char pair ch k : two_byte pair -> char_of pair ch -> (forall a, ch <> [a; 92]) -> k <> [] ->
  lex_wide pair (flat_map spell ch ++ k) = then_read ch (lex_wide pair k).
Proof.
  intros HP [[b [-> [Hb Hn]]]|[a [b [-> Hab]]]] H92 Hk.
  - cbn [flat_map]. rewrite app_nil_r. destruct (spell_char_cases b) as [[e [-> Hu]]|[-> [N1 N2]]].
    + cbn [app lex_wide]. rewrite (pair_low pair 92 e HP) by lia. change (92 =? 39) with false. change (92 =? 92) with true. cbv iota. rewrite Hu. reflexivity.
    + destruct k as [|d k]; [contradiction|]. cbn [app lex_wide]. rewrite Hn.
      destruct (Z.eqb_spec b 39); [contradiction|]. destruct (Z.eqb_spec b 92); [contradiction|]. reflexivity.
  - destruct (HP a b Hab) as [Ha Hb]. assert (b <> 92) by (intros ->; now apply (H92 a)).
    assert (Ea : spell a = [a]) by (apply spell_other; lia).
    assert (Eb : spell b = [b]) by (apply spell_other; lia).
    cbn [flat_map]. rewrite Ea, Eb. cbn [app lex_wide]. rewrite Hab. reflexivity.
Qed.
Lemma then_app a b r : then_read a (then_read b r) = then_read (a ++ b) r.
Proof. destruct r as [[v k]|]; cbn; [now rewrite app_assoc|reflexivity]. Qed.
Lemma wide_chars pair chs k : two_byte pair -> Forall (char_of pair) chs -> Forall (fun ch => forall a, ch <> [a; 92]) chs -> k <> [] ->
  lex_wide pair (flat_map spell (List.concat chs) ++ k) = then_read (List.concat chs) (lex_wide pair k).
Proof.
  intros HP Hc Hn Hk. induction Hc as [|ch chs Hch _ IH]; cbn [List.concat].
  - cbn [flat_map app]. destruct (lex_wide pair k) as [[v r]|]; reflexivity.
  - inversion Hn as [|? ? N1 N2]; subst. rewrite flat_map_app, <- app_assoc. rewrite wide_char; try assumption.
    + rewrite (IH N2). apply then_app.
    + intro E. apply app_eq_nil in E as [_ E]. contradiction.
Qed.
Lemma wide_close pair k : two_byte pair -> hd 0 k <> 39 -> lex_wide pair (39 :: k) = Some ([], k).
Proof.
  intros HP Hk. cbn [lex_wide]. destruct k as [|d k]; [reflexivity|]. rewrite (pair_low pair 39 d HP) by lia. change (39 =? 39) with true. cbv iota.
  cbn in Hk. destruct (Z.eqb_spec d 39); [contradiction|reflexivity].
Qed.
Lemma wide_half pair a k : two_byte pair -> pair a 92 = true ->
  lex_wide pair (flat_map spell [a; 92] ++ 39 :: k) = then_read [a; 92; 39] (lex_wide pair k).
Proof.
  intros HP Ha. destruct (HP a 92 Ha) as [Hb _]. assert (Ea : spell a = [a]) by (apply spell_other; lia).
  cbn [flat_map]. rewrite Ea. change (spell 92) with [92; 92]. cbn [app]. cbn [lex_wide]. rewrite Ha.
  rewrite (pair_low pair 92 39 HP) by lia. change (92 =? 39) with false. change (92 =? 92) with true. cbv iota.
  change (unescape 39) with [39]. destruct (lex_wide pair k) as [[v r]|]; reflexivity.
Qed.
Lemma wide_ending pair chs a k : two_byte pair -> Forall (char_of pair) chs -> Forall (fun ch => forall a, ch <> [a; 92]) chs -> pair a 92 = true ->
  lex_wide pair (flat_map spell (List.concat chs ++ [a; 92]) ++ 39 :: k)
  = match lex_wide pair k with Some (v, rest) => Some ((List.concat chs ++ [a; 92]) ++ txt "'" ++ v, rest) | None => None end.
Proof.
  intros HP Hc Hn Ha. rewrite flat_map_app, <- app_assoc. rewrite wide_chars; try assumption.
  - rewrite wide_half by assumption. destruct (lex_wide pair k) as [[v r]|]; cbn [then_read]; [|reflexivity]. rewrite <- app_assoc. reflexivity.
  - intro E. apply app_eq_nil in E as [_ E]. discriminate.
Qed.
Lemma chars_bytes pair chs : two_byte pair -> Forall (char_of pair) chs -> all_bytes (List.concat chs).
Proof.
  intros HP. induction 1 as [|ch chs H _ IH]; cbn [List.concat]; [constructor|]. apply Forall_app. split; [|exact IH].
  destruct H as [[b [-> [Hb _]]]|[a [b [-> Hab]]]]; [|apply HP in Hab]; repeat (constructor; [unfold is_byte; lia|]); constructor.
Qed.
Lemma not_magic_92 s a : s ++ [a; 92] <> txt "0001-01-01T00:00:00Z".
Proof.
  intro E. assert (H : In 92 (txt "0001-01-01T00:00:00Z")) by (rewrite <- E; apply in_or_app; right; cbn; tauto).
  cbn in H. repeat (destruct H as [H|H]; [discriminate H|]). exact H.
Qed.
Lemma spell_plain s : Forall (fun c => ~ In c [0; 10; 13; 26; 34; 39; 92]) s -> flat_map spell s = s.
Proof. induction 1 as [|c s H _ IH]; [reflexivity|]. cbn [flat_map In] in *. rewrite IH, spell_other by lia. reflexivity. Qed.
