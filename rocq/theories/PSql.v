(** Proofs about the printed SQL text. *)
From Coq Require Import ZifyBool.
From Verif Require Import GoBase Utils Ibdata Redo SpecInno SpecText SpecSql SpecRow PBase PValue PText.
Local Open Scope list_scope.
Ltac Zify.zify_post_hook ::= Z.div_mod_to_equations.

Lemma txt_bs s : txt s = bs s.
Proof. induction s as [|c s IH]; [reflexivity|]. cbn [txt bs]. now rewrite IH. Qed.

Ltac eqcase := match goal with |- context [?a =? ?b] => destruct (Z.eqb_spec a b) end.

(** * EscapeValue, byte by byte *)
Definition esc1 (c : Z) : bytes := match esc_of c with Some e => e | None => [c] end.
Lemma esc_high c : 128 <= c -> esc_of c = None.
Proof.
  intro H. unfold esc_of. repeat (eqcase; [lia|]). reflexivity.
Qed.
Lemma esc1_high l : Forall (fun c => 128 <= c) l -> flat_map esc1 l = l.
Proof.
  induction 1 as [|c l H _ IH]; [reflexivity|]. cbn [flat_map]. unfold esc1 at 1. rewrite esc_high by exact H. cbn [app]. now rewrite IH.
Qed.
Lemma utf8_high c : 128 <= c -> scalar c -> Forall (fun x => 128 <= x) (utf8 c).
Proof.
  unfold scalar, utf8. intros H Hc. destruct (Z.ltb_spec c 128); [lia|].
  destruct (c <? 2048); [|destruct (c <? 65536)]; repeat (constructor; [lia|]); constructor.
Qed.
Lemma substr_mid (pre m u : bytes) l0 : 0 <= l0 <= len pre ->
  substr ((pre ++ m) ++ u) l0 (len (pre ++ m)) = substr (pre ++ m ++ u) l0 (len pre) ++ m.
Proof.
  intro H0. rewrite <- app_assoc. unfold substr. rewrite len_app.
  rewrite skipn_app. replace (Z.to_nat l0 - List.length pre)%nat with 0%nat by (unfold len in H0; lia).
  change (skipn 0 (m ++ u)) with (m ++ u).
  assert (L : List.length (skipn (Z.to_nat l0) pre) = Z.to_nat (len pre - l0)).
  { rewrite skipn_length. unfold len in *. lia. }
  rewrite (firstn_app_exact (Z.to_nat (len pre - l0)) (skipn (Z.to_nat l0) pre)) by exact L.
  rewrite app_assoc. rewrite firstn_app_exact; [reflexivity|]. rewrite app_length, L. unfold len in *. lia.
Qed.
Lemma substr_nil s a : substr s a a = [].
Proof. unfold substr. now rewrite Z.sub_diag. Qed.

Lemma escape_fold f : forall pre s buf last, all_bytes s -> (List.length s <= f)%nat -> 0 <= last <= len pre ->
  let '(buf', last') := fold_left (escape_step (pre ++ s)) (range_aux f (len pre) s) (buf, last) in
  buf' ++ substr (pre ++ s) last' (len (pre ++ s)) = buf ++ substr (pre ++ s) last (len pre) ++ flat_map esc1 s.
Proof.
  induction f as [|f IH]; intros pre s buf last Hb Hf Hl.
  { destruct s; [|cbn in Hf; lia]. cbn. rewrite !app_nil_r. reflexivity. }
  destruct s as [|b t] eqn:Es.
  { cbn. rewrite !app_nil_r. reflexivity. }
  cbn [range_aux]. rewrite <- Es in *. destruct (decode_rune s) as [r w] eqn:D.
  assert (Hne : s <> []) by (rewrite Es; discriminate).
  destruct (decode_cases s r w Hb Hne D) as [[-> ->]|[Hr [-> [u Eu]]]].
  - assert (H128 : 128 <= b).
    { rewrite Es in D. cbn [decode_rune] in D. destruct (Z.ltb_spec b 128); [|lia]. injection D as E. lia. }
    cbn [fold_left]. change (escape_step (pre ++ s) (buf, last) (len pre, 65533)) with (buf, last).
    rewrite Es. cbn [skipn]. change (b :: t) with ([b] ++ t). rewrite app_assoc.
    replace (len pre + Z.of_nat 1) with (len (pre ++ [b])) by (rewrite len_app; reflexivity).
    specialize (IH (pre ++ [b]) t buf last).
    destruct (fold_left _ _ _) as [buf' last']. rewrite IH.
    + rewrite substr_mid by exact Hl. cbn [app flat_map]. unfold esc1 at 2. rewrite esc_high by exact H128.
      rewrite <- !app_assoc. reflexivity.
    + rewrite Es in Hb. now inversion Hb.
    + rewrite Es in Hf. cbn [List.length] in Hf. lia.
    + rewrite len_app. change (len [b]) with 1. lia.
  - clear Es b t. replace (skipn (List.length (utf8 r)) s) with u by (rewrite Eu; now rewrite skipn_app_len).
    assert (Hbu : all_bytes u) by (rewrite Eu in Hb; now apply all_bytes_app in Hb).
    pose proof (utf8_len r Hr) as Hlen.
    assert (Hfu : (List.length u <= f)%nat).
    { rewrite Eu, app_length in Hf. lia. }
    rewrite Eu. rewrite app_assoc. replace (len pre + Z.of_nat (List.length (utf8 r))) with (len (pre ++ utf8 r)) by (rewrite len_app; reflexivity).
    cbn [fold_left].
    pose proof (substr_mid pre (utf8 r) u) as Sub.
    destruct (Z.lt_ge_cases r 128) as [Hsm|Hbig].
    + assert (Eutf : utf8 r = [r]) by (unfold utf8; destruct (Z.ltb_spec r 128); [reflexivity|lia]).
      unfold escape_step at 2. destruct (esc_of r) as [e|] eqn:Er.
      * specialize (IH (pre ++ utf8 r) u (buf ++ substr ((pre ++ utf8 r) ++ u) last (len pre) ++ e) (len pre + 1)).
        destruct (fold_left _ _ _) as [buf' last']. rewrite IH; [|assumption|assumption|].
        -- replace (len pre + 1) with (len (pre ++ utf8 r)) by (rewrite Eutf, len_app; reflexivity).
           rewrite substr_nil. rewrite flat_map_app. rewrite Eutf. cbn [flat_map]. unfold esc1 at 2. rewrite Er.
           rewrite !app_nil_r. rewrite <- !app_assoc. reflexivity.
        -- rewrite Eutf, len_app. change (len [r]) with 1. pose proof (len_nonneg pre). lia.
      * specialize (IH (pre ++ utf8 r) u buf last).
        destruct (fold_left _ _ _) as [buf' last']. rewrite IH; [|assumption|assumption|].
        -- rewrite Sub by lia. rewrite flat_map_app, Eutf. cbn [flat_map]. unfold esc1 at 2. rewrite Er.
           rewrite !app_nil_r. rewrite <- !app_assoc. reflexivity.
        -- rewrite len_app. pose proof (len_nonneg (utf8 r)). lia.
    + unfold escape_step at 2. rewrite esc_high by lia.
      specialize (IH (pre ++ utf8 r) u buf last).
      destruct (fold_left _ _ _) as [buf' last']. rewrite IH; [|assumption|assumption|].
      * rewrite Sub by lia. rewrite flat_map_app. rewrite (esc1_high (utf8 r)) by (apply utf8_high; [lia|exact Hr]).
        rewrite <- !app_assoc. reflexivity.
      * rewrite len_app. pose proof (len_nonneg (utf8 r)). lia.
Qed.

Definition magic : bytes := bs "0001-01-01T00:00:00Z".
Lemma escape_bytes s : all_bytes s ->
  EscapeValue s = if beq (flat_map esc1 s) magic then [] else flat_map esc1 s.
Proof.
  intro Hb. unfold EscapeValue, range_string.
  assert (G : forall buf last, fold_left (escape_step s) (range_aux (List.length s) 0 s) ([], 0) = (buf, last) ->
    buf ++ substr s last (len s) = flat_map esc1 s).
  { intros buf last E. pose proof (escape_fold (List.length s) [] s [] 0 Hb (le_n _) ltac:(cbn; lia)) as H.
    cbn [app] in H. change (len (@nil Z)) with 0 in H. unfold bytes in *. rewrite E in H. exact H. }
  destruct (fold_left (escape_step s) (range_aux (List.length s) 0 s) ([], 0)) as [buf last] eqn:E.
  rewrite (G buf last eq_refl). reflexivity.
Qed.
Lemma esc_cases c : (exists e, esc_of c = Some [92; e] /\ unescape e = [c]) \/ (esc_of c = None /\ c <> 39 /\ c <> 92).
Proof.
  unfold esc_of. repeat (eqcase; [subst; left; eexists; split; [reflexivity|reflexivity]|]).
  right. auto.
Qed.
Lemma esc_magic s : flat_map esc1 s = magic -> s = magic.
Proof.
  assert (G : forall m, Forall (fun c => esc_of c = None /\ c <> 92) m -> forall s, flat_map esc1 s = m -> s = m).
  { induction m as [|a m IH]; intros Hm t E.
    - destruct t as [|c t]; [reflexivity|]. cbn [flat_map] in E. unfold esc1 at 1 in E.
      destruct (esc_cases c) as [[e [He _]]|[He _]]; rewrite He in E; discriminate.
    - inversion Hm as [|? ? [Ha Ha'] Hm']; subst. destruct t as [|c t]; [discriminate|]. cbn [flat_map] in E.
      unfold esc1 at 1 in E. destruct (esc_cases c) as [[e [He _]]|[He _]]; rewrite He in E; cbn [app] in E.
      + injection E as E1 E2. symmetry in E1. contradiction.
      + injection E as -> E2. f_equal. now apply IH. }
  apply G. repeat (constructor; [split; [reflexivity|discriminate]|]). constructor.
Qed.
Lemma lex_esc s cont : lex_str (flat_map esc1 s ++ cont)
  = match lex_str cont with Some (v, k) => Some (s ++ v, k) | None => None end.
Proof.
  induction s as [|c s IH].
  - cbn [flat_map app]. destruct (lex_str cont) as [[v k]|]; reflexivity.
  - cbn [flat_map]. unfold esc1 at 1. destruct (esc_cases c) as [[e [He Hu]]|[He [H1 H2]]]; rewrite He; cbn [app].
    + cbn [lex_str]. change (92 =? 39) with false. change (92 =? 92) with true. cbv iota.
      rewrite IH, Hu. destruct (lex_str cont) as [[v k]|]; reflexivity.
    + cbn [lex_str]. destruct (Z.eqb_spec c 39); [contradiction|]. destruct (Z.eqb_spec c 92); [contradiction|].
      rewrite IH. destruct (lex_str cont) as [[v k]|]; reflexivity.
Qed.
(** the closing quote *)
Definition no_quote (k : bytes) : Prop := match k with c :: _ => c <> 39 | [] => True end.
Lemma lex_close k : no_quote k -> lex_str (39 :: k) = Some ([], k).
Proof.
  intro H. cbn [lex_str]. change (39 =? 39) with true. cbv iota. destruct k as [|c k]; [reflexivity|].
  cbn in H. destruct (Z.eqb_spec c 39); [contradiction|reflexivity].
Qed.
Lemma escape_not_magic s : all_bytes s -> s <> magic -> EscapeValue s = flat_map esc1 s.
Proof.
  intros Hb Hm. rewrite escape_bytes by exact Hb. destruct (beq (flat_map esc1 s) magic) eqn:E; [|reflexivity].
  apply beq_eq in E. apply esc_magic in E. contradiction.
Qed.
Lemma escape_magic : EscapeValue magic = [].
Proof. vm_compute. reflexivity. Qed.
Lemma escape_lex s k : all_bytes s -> s <> magic -> no_quote k -> lex_str (EscapeValue s ++ 39 :: k) = Some (s, k).
Proof.
  intros Hb Hm Hk. rewrite escape_not_magic by assumption. rewrite lex_esc, lex_close by exact Hk. now rewrite app_nil_r.
Qed.
(** no raw line feed survives *)
Lemma esc_no_lf s : ~ In 10 (flat_map esc1 s).
Proof.
  induction s as [|c s IH]; [exact (fun H => H)|]. cbn [flat_map]. rewrite in_app_iff. intros [H|H]; [|now apply IH].
  revert H. unfold esc1. unfold esc_of.
  repeat (eqcase; [subst; cbn [In]; intuition discriminate|]). cbn [In]. intuition congruence.
Qed.
Lemma escape_no_lf s : all_bytes s -> ~ In 10 (EscapeValue s).
Proof. intro Hb. rewrite escape_bytes by exact Hb. destruct (beq _ _); [exact (fun H => H)|apply esc_no_lf]. Qed.
Lemma esc1_id s : Forall (fun c => esc_of c = None) s -> flat_map esc1 s = s.
Proof.
  induction 1 as [|c s Hc _ IH]; [reflexivity|]. cbn [flat_map]. unfold esc1 at 1. rewrite Hc. cbn [app]. now rewrite IH.
Qed.

(** * Readers *)
Lemma strip_app p t : strip p (p ++ t) = Some t.
Proof. induction p as [|a p IH]; [reflexivity|]. cbn. now rewrite Z.eqb_refl. Qed.
Definition no_bq (k : bytes) : Prop := match k with c :: _ => c <> 96 | [] => True end.
Lemma lex_ident_plain n k : ~ In 96 n -> no_bq k -> lex_ident (n ++ 96 :: k) = Some (n, k).
Proof.
  intros Hn Hk. induction n as [|c n IH].
  - cbn [app lex_ident]. change (96 =? 96) with true. cbv iota. destruct k as [|d k]; [reflexivity|].
    cbn in Hk. destruct (Z.eqb_spec d 96); [contradiction|reflexivity].
  - cbn [app lex_ident]. cbn [In] in Hn. destruct (Z.eqb_spec c 96); [lia|].
    rewrite IH; [reflexivity|tauto].
Qed.
Lemma read_table_plain db tb k : ~ In 96 db -> ~ In 96 tb -> no_bq k ->
  read_table (96 :: db ++ 96 :: 46 :: 96 :: tb ++ 96 :: k) = Some (db, tb, k).
Proof.
  intros Hd Ht Hk. unfold read_table. change (txt "`") with [96]. change (txt ".`") with [46; 96].
  cbn [strip]. change (96 =? 96) with true. cbv iota.
  rewrite lex_ident_plain; [|exact Hd|cbn; lia].
  cbn [strip]. change (46 =? 46) with true. change (96 =? 96) with true. cbv iota.
  now rewrite lex_ident_plain.
Qed.

(** the end of a value: a comma or a closing parenthesis *)
Definition val_end (k : bytes) : Prop := match k with c :: _ => c = 44 \/ c = 41 | [] => False end.
Lemma val_end_nq k : val_end k -> no_quote k.
Proof. destruct k; cbn; [trivial|lia]. Qed.
Lemma read_value_null k : read_value (txt "NULL" ++ k) = Some (SNull, k).
Proof. reflexivity. Qed.
Lemma read_value_str s k : all_bytes s -> s <> magic -> no_quote k ->
  read_value (39 :: EscapeValue s ++ 39 :: k) = Some (SStr s, k).
Proof.
  intros Hb Hm Hk. unfold read_value, read_plain. cbn -[lex_str EscapeValue app].
  now rewrite escape_lex by assumption.
Qed.
Lemma hex_chars h b : unhex h = Some b -> Forall (fun c => hex_val c <> None) h.
Proof.
  revert b. induction h as [h IH] using (well_founded_induction (Wf_nat.well_founded_ltof _ (@List.length Z))).
  intros b. destruct h as [|x [|y r]]; [constructor|discriminate|].
  cbn [unhex]. destruct (hex_val x) eqn:E1; [|discriminate]. destruct (hex_val y) eqn:E2; [|discriminate].
  destruct (unhex r) eqn:E3; [|discriminate]. intros _. constructor; [congruence|]. constructor; [congruence|].
  eapply IH; [|exact E3]. unfold ltof. cbn [List.length]. lia.
Qed.
Lemma hex_facts h b : unhex h = Some b -> all_bytes h /\ h <> magic /\ h <> bs "NULL".
Proof.
  intro E. apply hex_chars in E. split; [|split].
  - eapply Forall_impl; [|exact E]. intros c Hc. cbv beta in Hc. unfold hex_val in Hc. unfold is_byte.
    destruct ((48 <=? c) && (c <=? 57)) eqn:E1; [lia|]. destruct ((97 <=? c) && (c <=? 102)) eqn:E2; [lia|].
    destruct ((65 <=? c) && (c <=? 70)) eqn:E3; [lia|]. congruence.
  - intros ->. rewrite Forall_forall in E. apply (E 45); [|reflexivity]. vm_compute. tauto.
  - intros ->. rewrite Forall_forall in E. apply (E 78); [|reflexivity]. vm_compute. tauto.
Qed.
Lemma read_value_hex h b k : unhex h = Some b ->
  read_value (txt "unhex(" ++ 39 :: EscapeValue h ++ 39 :: 41 :: k) = Some (SBytes b, k).
Proof.
  intro E. destruct (hex_facts h b E) as [H1 [H2 _]]. unfold read_value, read_plain.
  change (strip (txt "b'") _) with (@None (list Z)). rewrite strip_app. cbv iota.
  change (strip (txt "NULL") (39 :: _)) with (@None (list Z)). cbv iota.
  change (strip (txt "'") (39 :: ?x)) with (Some x).
  cbn -[lex_str EscapeValue app].
  rewrite escape_lex; [|assumption|assumption|cbn; lia]. rewrite E. reflexivity.
Qed.

(** * Values of the tool *)
Lemma int_text_chars n t : int_text n t -> Forall (fun c => c = 45 \/ digit c) t /\ t <> [].
Proof.
  intros [[_ [H [_ [Hl _]]]]|[_ [t' [-> [H _]]]]].
  - split; [eapply Forall_impl; [|exact H]; tauto|]. intros ->. cbn in Hl. lia.
  - split; [|discriminate]. constructor; [tauto|]. eapply Forall_impl; [|exact H]. tauto.
Qed.
Lemma int_text_facts n t : int_text n t -> all_bytes t /\ t <> magic /\ t <> bs "NULL".
Proof.
  intro E. apply int_text_chars in E. destruct E as [E _]. split; [|split].
  - eapply Forall_impl; [|exact E]. unfold digit, is_byte. intros c Hc. cbv beta in Hc. lia.
  - intros ->. rewrite Forall_forall in E. specialize (E 84). unfold digit in E. vm_compute in E.
    assert (H : 84 = 45 \/ 48 <= 84 <= 57) by (apply E; tauto). lia.
  - intros ->. rewrite Forall_forall in E. specialize (E 78). unfold digit in E. vm_compute in E.
    assert (H : 78 = 45 \/ 48 <= 78 <= 57) by (apply E; tauto). lia.
Qed.
Lemma int_text_unique n t1 t2 : int_text n t1 -> int_text n t2 -> t1 = t2.
Proof.
  intros [[H1 A]|[H1 [t1' [-> A]]]] [[H2 B]|[H2 [t2' [-> B]]]]; try lia.
  - eapply dec_text_unique; eassumption.
  - f_equal. eapply dec_text_unique; eassumption.
Qed.
Lemma text_of_fmt rt v t : text_of rt v t -> fmt_v rt v = t /\ v <> VNil.
Proof.
  intro H. inversion H; subst; split; try discriminate; try reflexivity; cbn [fmt_v];
    (eapply int_text_unique; [apply fmt_d_spec|assumption]).
Qed.
Definition null_text : bytes := bs "NULL".
(** values that survive printing and reading *)
Definition readable (v : sqlval) : Prop :=
  match v with
  | SStr t => all_bytes t /\ t <> magic /\ t <> null_text
  | SBits n => n = 0 \/ n = 1
  | _ => True
  end.
Lemma is_null_spec v : is_null_value v = true <-> v = VNil \/ v = VStr null_text.
Proof.
  destruct v; cbn; try (split; [discriminate|intros [H|H]; discriminate]).
  - tauto.
  - rewrite beq_eq. split; [intros ->; now right|intros [H|H]; [discriminate|now injection H]].
Qed.
Lemma column_text_null rt c : is_null_value (c_value c) = true -> ~ is_bit c ->
  column_text rt c = (if c_binary c then bs "unhex(" else []) ++ null_text ++ (if c_binary c then bs ")" else []).
Proof.
  intros H Hb. unfold column_text, is_bit in *. rewrite H. cbn [negb].
  destruct (Z.eqb_spec (c_mysql c) MYSQL_TYPE_BIT); [contradiction|]. reflexivity.
Qed.
Lemma column_text_plain rt c : is_null_value (c_value c) = false -> ~ is_bit c -> c_binary c = false ->
  column_text rt c = 39 :: EscapeValue (fmt_v rt (c_value c)) ++ [39].
Proof.
  intros H Hb Hn. unfold column_text, is_bit in *. rewrite H, Hn. cbn [negb].
  destruct (Z.eqb_spec (c_mysql c) MYSQL_TYPE_BIT); [contradiction|]. cbn [app bs]. rewrite app_nil_r. reflexivity.
Qed.
Lemma read_column rt c v k : stands_for rt c v -> readable v -> val_end k ->
  read_value (column_text rt c ++ k) = Some (v, k).
Proof.
  intros H Hr Hk. destruct H as [c Hv Hb|c t Ht Hb Hn|c h b Hv Hh Hb Hn|c n Hv Hb Hn].
  - rewrite column_text_null; [|apply is_null_spec; exact Hv|exact Hb].
    destruct (c_binary c); [|reflexivity]. rewrite <- !app_assoc. reflexivity.
  - destruct Hr as [R1 [R2 R3]]. destruct (text_of_fmt rt _ _ Ht) as [E Hnil].
    rewrite column_text_plain; [|apply not_true_iff_false; rewrite is_null_spec; intros [X|X]|exact Hb|exact Hn].
    + rewrite E. cbn [app]. rewrite <- app_assoc. apply read_value_str; [assumption|assumption|now apply val_end_nq].
    + contradiction.
    + rewrite X in E. cbn in E. now subst.
  - destruct (hex_facts h b Hh) as [R1 [R2 R3]]. unfold column_text, is_bit in *.
    destruct (Z.eqb_spec (c_mysql c) MYSQL_TYPE_BIT); [contradiction|]. rewrite Hv, Hn.
    replace (is_null_value (VStr h)) with false.
    2:{ symmetry. apply not_true_iff_false. rewrite is_null_spec. intros [X|X]; [discriminate|]. injection X as X. contradiction. }
    cbn [negb fmt_v]. rewrite <- !app_assoc. exact (read_value_hex h b k Hh).
  - unfold column_text, is_bit in *. rewrite Hb, Hv, Hn.
    destruct Hr as [-> | ->]; reflexivity.
Qed.

Definition user (c : Column) : bool := negb (internal_name (c_name c)).
Lemma columns_text_user rt cols : forall b, columns_text rt b cols = columns_text rt b (filter user cols).
Proof.
  induction cols as [|c cs IH]; intro b; [reflexivity|]. cbn [columns_text filter]. unfold user at 1.
  destruct (internal_name (c_name c)) eqn:E; cbn [negb]; [apply IH|]. cbn [columns_text]. rewrite E. now rewrite IH.
Qed.
Lemma internal_spec c : internal_name (c_name c) = true <-> internal c.
Proof.
  unfold internal_name, internal. rewrite !orb_true_iff, !beq_eq.
  change (txt "DB_ROW_ID") with (bs "DB_ROW_ID"). change (txt "DB_TRX_ID") with (bs "DB_TRX_ID").
  change (txt "DB_ROLL_PTR") with (bs "DB_ROLL_PTR"). tauto.
Qed.
Lemma user_spec c : user c = true <-> ~ internal c.
Proof. unfold user. rewrite <- internal_spec, negb_true_iff. now destruct (internal_name (c_name c)). Qed.

Lemma read_columns rt : forall cs vs c v k f,
  Forall2 (fun c v => stands_for rt c v /\ readable v /\ user c = true) (c :: cs) (v :: vs) ->
  (List.length cs < f)%nat ->
  read_values f (column_text rt c ++ columns_text rt false cs ++ 41 :: k) = Some (v :: vs, k).
Proof.
  induction cs as [|c' cs IH]; intros vs c v k f H Hf; inversion H as [|? ? ? ? [H1 [H2 H3]] H4]; subst;
    (destruct f as [|f]; [lia|]); cbn [read_values].
  - inversion H4; subst. cbn [columns_text app]. rewrite (read_column rt c v); [|assumption|assumption|cbn; tauto].
    reflexivity.
  - inversion H4 as [|? v' ? vs' [G1 [G2 G3]] G4]; subst. cbn [columns_text].
    unfold user in G3. apply negb_true_iff in G3. rewrite G3.
    rewrite (read_column rt c v); [|assumption|assumption|cbn; tauto].
    cbn [List.length] in Hf.
    rewrite <- !app_assoc. change (bs ",") with (txt ","). rewrite strip_app. rewrite (IH vs' c' v' k f); [reflexivity|assumption|lia].
Qed.

Lemma column_text_len rt c : (1 <= List.length (column_text rt c))%nat.
Proof. unfold column_text. destruct (is_null_value (c_value c)); cbn [negb]; rewrite !app_length; cbn [List.length bs]; lia. Qed.
Lemma columns_text_len rt cs : Forall (fun c => user c = true) cs -> (List.length cs <= List.length (columns_text rt false cs))%nat.
Proof.
  induction 1 as [|c cs H _ IH]; [cbn; lia|]. cbn [columns_text]. unfold user in H. apply negb_true_iff in H. rewrite H.
  rewrite !app_length. cbn [List.length bs]. lia.
Qed.
Lemma replace_reads rt db tb row c cs v vs : ~ In 96 db -> ~ In 96 tb -> filter user row = c :: cs ->
  Forall2 (fun c v => stands_for rt c v /\ readable v) (c :: cs) (v :: vs) ->
  read_replace (replace_statement rt tb db row) = Some (db, tb, v :: vs).
Proof.
  intros Hd Ht Hu H. unfold replace_statement, read_replace.
  assert (Hall : Forall (fun c => user c = true) (c :: cs)).
  { rewrite <- Hu. apply Forall_forall. intros x Hx. apply filter_In in Hx. tauto. }
  assert (H' : Forall2 (fun c v => stands_for rt c v /\ readable v /\ user c = true) (c :: cs) (v :: vs)).
  { revert H Hall. generalize (c :: cs) (v :: vs). clear. induction 1 as [|x y l m Hx _ IH]; intro Ha; [constructor|].
    inversion Ha; subst. constructor; [tauto|]. now apply IH. }
  change (bs "replace into `") with (txt "replace into " ++ [96]). rewrite <- app_assoc, strip_app.
  change ([96] ++ db ++ ?x) with (96 :: db ++ x).
  change (bs "`.`" ++ ?x) with (96 :: 46 :: 96 :: x). change (bs "` values (" ++ ?x) with (96 :: txt " values (" ++ x).
  rewrite read_table_plain; [|assumption|assumption|cbn; lia]. rewrite strip_app.
  rewrite columns_text_user, Hu. cbn [columns_text]. inversion Hall as [|? ? Hc Hcs]; subst. unfold user in Hc. apply negb_true_iff in Hc.
  rewrite Hc. change (([] : bytes) ++ ?x) with x. change (bs ");") with [41; 59]. rewrite <- app_assoc.
  rewrite (read_columns rt cs vs c v [59]); [reflexivity|exact H'|].
  rewrite !app_length. pose proof (columns_text_len rt cs Hcs). pose proof (column_text_len rt c). cbn [List.length]. lia.
Qed.

(** * Values that do not survive *)
Definition carried (c : Column) (v : sqlval) : Prop :=
  match v with
  | SStr t => c_value c <> VStr null_text /\ t <> magic
  | SBits n => n = 0 \/ n = 1
  | _ => True
  end.
Lemma lex_bits_digits t : forall a k, Forall digit t -> lex_bits a (t ++ 39 :: k)
  = if forallb (fun c => c <=? 49) t then Some (fold_left (fun a c => a * 2 + (c - 48)) t a, k) else None.
Proof.
  induction t as [|c t IH]; intros a k H; [reflexivity|]. pose proof (Forall_inv H) as Hc. apply Forall_inv_tail in H. unfold digit in Hc. cbn [app lex_bits forallb fold_left].
  destruct (Z.eqb_spec c 39); [lia|]. destruct (Z.eqb_spec c 48) as [->|].
  - change (48 <=? 49) with true. cbn [andb]. rewrite IH by exact H. now replace (a * 2 + (48 - 48)) with (a * 2) by lia.
  - destruct (Z.eqb_spec c 49) as [->|]; [|destruct (Z.leb_spec c 49); [lia|reflexivity]]. change (49 <=? 49) with true. cbn [andb]. rewrite IH by exact H. now replace (a * 2 + (49 - 48)) with (a * 2 + 1) by lia.
Qed.
Lemma bits_below t : forall a b, Forall digit t -> forallb (fun c => c <=? 49) t = true -> 0 <= a < b ->
  fold_left (fun a c => a * 2 + (c - 48)) t a < fold_left (fun a c => a * 10 + (c - 48)) t b.
Proof.
  induction t as [|c t IH]; intros a b H H1 Hab; [exact (proj2 Hab)|]. pose proof (Forall_inv H) as Hc. apply Forall_inv_tail in H. unfold digit in Hc. cbn [forallb] in H1. apply andb_true_iff in H1 as [H1 H2].
  cbn [fold_left]. apply IH; [exact H|exact H2|lia].
Qed.
Lemma bits_wrong n t k : int_text n t -> n <> 0 -> n <> 1 -> lex_bits 0 (t ++ 39 :: k) <> Some (n, k).
Proof.
  intros [[H [Hd [Hv [Hl [_ Hh]]]]]|[H [t' [-> _]]]] H0 H1; [|discriminate]. rewrite lex_bits_digits by exact Hd. destruct (forallb _ t) eqn:E; [|discriminate]. intro X. injection X as X.
  destruct t as [|c t]; [cbn in Hl; lia|]. pose proof (Forall_inv Hd) as Hc. apply Forall_inv_tail in Hd. unfold digit in Hc. cbn [forallb] in E. apply andb_true_iff in E as [E1 E2]. unfold dec_val in Hv. cbn [fold_left] in X, Hv.
  destruct t as [|d t]; [cbn in *; lia|]. cbn [List.length hd] in Hh. destruct Hh as [Hh|Hh]; [cbn in Hh; lia|].
  cbn [fold_left] in X, Hv. apply Forall_inv in Hd as Hc2. apply Forall_inv_tail in Hd. unfold digit in Hc2. cbn [forallb] in E2. apply andb_true_iff in E2 as [E2 E3].
  pose proof (bits_below t ((0 * 2 + (c - 48)) * 2 + (d - 48)) ((0 * 10 + (c - 48)) * 10 + (d - 48)) Hd E3 ltac:(lia)). lia.
Qed.
Lemma read_column_right rt c v k k' : stands_for rt c v -> (forall t, v = SStr t -> all_bytes t) -> val_end k ->
  read_value (column_text rt c ++ k) = Some (v, k') -> carried c v /\ k' = k.
Proof.
  intros H Hb Hk E.
  assert (D : readable v \/ (exists t, v = SStr t /\ (t = magic \/ t = null_text)) \/ exists n, v = SBits n /\ n <> 0 /\ n <> 1).
  { destruct v as [|t|n|s]; try (left; exact I).
    - specialize (Hb t eq_refl). destruct (beq t magic) eqn:E1; [apply beq_eq in E1; right; left; exists t; auto|]. destruct (beq t null_text) eqn:E2; [apply beq_eq in E2; right; left; exists t; auto|].
      apply beq_neq in E1. apply beq_neq in E2. left. split; [exact Hb|]. split; assumption.
    - destruct (Z.eq_dec n 0); [left; cbn; auto|]. destruct (Z.eq_dec n 1); [left; cbn; auto|]. right. right. exists n. auto. }
  destruct D as [R|[[t [-> Ht]]|[n [-> [N0 N1]]]]].
  - rewrite (read_column rt c v k H R Hk) in E. injection E as E. split; [|congruence]. destruct v; cbn in *; try tauto. destruct R as [_ [R1 R2]]. split; [|exact R1].
    inversion H as [|? ? Ht ? ?| |]; subst. intro X. rewrite X in Ht. inversion Ht; subst. now apply R2.
  - specialize (Hb t eq_refl). inversion H as [|? ? Hx Hbit Hbin| |]; subst. destruct (text_of_fmt rt _ _ Hx) as [EF Hn].
    destruct (is_null_value (c_value c)) eqn:EN.
    + rewrite column_text_null in E by assumption. rewrite Hbin in E. cbn [app] in E. rewrite app_nil_r in E. change null_text with (txt "NULL") in E. rewrite read_value_null in E. discriminate.
    + rewrite column_text_plain in E by assumption. rewrite EF in E. destruct Ht as [->| ->].
      * rewrite escape_magic in E. cbn [app] in E. change (39 :: 39 :: k) with (39 :: EscapeValue [] ++ 39 :: k) in E. rewrite read_value_str in E; [discriminate|constructor|discriminate|now apply val_end_nq].
      * cbn [app] in E. rewrite <- app_assoc in E. cbn [app] in E. rewrite read_value_str in E; [|exact Hb|discriminate|now apply val_end_nq].
        injection E as E. split; [|congruence]. split; [|discriminate]. intro X. rewrite X in EN. discriminate EN.
  - exfalso. inversion H as [| | |? ? Hv Hbit Hbin]; subst. unfold column_text, is_bit in *. rewrite Hbit, Hv, Hbin in E. change (16 =? MYSQL_TYPE_BIT) with true in E. cbn [is_null_value negb app] in E.
    pose proof (fmt_d_spec n) as HT. destruct (int_text_facts _ _ HT) as [T1 [T2 _]]. cbn [fmt_v] in E. rewrite escape_not_magic in E by assumption.
    rewrite esc1_id in E by (destruct (int_text_chars _ _ HT) as [T3 _]; revert T3; apply Forall_impl; intros a [->|Ha]; [reflexivity|]; unfold digit in Ha; unfold esc_of; repeat (eqcase; [lia|]); reflexivity).
    unfold read_value in E. rewrite <- !app_assoc in E. cbn [app] in E. change (bs "b") with [98] in E. change (bs "'") with [39] in E. cbn [app] in E. rewrite <- ?app_assoc in E. cbn [app] in E.
    change (strip (txt "b'") (98 :: 39 :: ?x)) with (Some x) in E. cbv iota in E.
    destruct (lex_bits 0 (fmt_d n ++ 39 :: k)) as [[m k2]|] eqn:EL; [|discriminate]. injection E as E1 E2. subst m k2. revert EL.
    assert (K : forall t a, lex_bits a (t ++ 39 :: k) = Some (n, k') -> Forall digit t -> k' = k) by (intros t a X Hd; rewrite lex_bits_digits in X by exact Hd; destruct (forallb _ _); [congruence|discriminate]).
    destruct HT as [[HT1 HT2]|[HT1 [t' [E' _]]]]; [|rewrite E'; discriminate]. intro EL. assert (k' = k) by (apply (K _ _ EL); apply HT2). subst k'. revert EL. apply bits_wrong; [left; auto|assumption|assumption].
Qed.
Lemma read_columns_right rt : forall cs vs c v k k' f,
  Forall2 (stands_for rt) (c :: cs) (v :: vs) -> (forall t, In (SStr t) (v :: vs) -> all_bytes t) -> Forall (fun c => user c = true) (c :: cs) ->
  read_values f (column_text rt c ++ columns_text rt false cs ++ 41 :: k) = Some (v :: vs, k') -> Forall2 carried (c :: cs) (v :: vs).
Proof.
  induction cs as [|c' cs IH]; intros vs c v k k' f H Hb Hu E; inversion H as [|? ? ? ? H1 H2]; subst; (destruct f as [|f]; [discriminate|]); cbn [read_values] in E.
  - inversion H2; subst. cbn [columns_text app] in E. destruct (read_value _) as [[w r]|] eqn:ER; [|discriminate].
    assert (w = v) by (destruct (strip (txt ",") r) as [r'|]; [destruct (read_values f r') as [[? ?]|]; [congruence|discriminate]|destruct (strip (txt ")") r); [congruence|discriminate]]). subst w.
    constructor; [|constructor]. eapply read_column_right; [exact H1|intros t ->; apply Hb; now left| |exact ER]. cbn. tauto.
  - inversion H2 as [|? v' ? vs' G1 G2]; subst. cbn [columns_text] in E. pose proof (Forall_inv (Forall_inv_tail Hu)) as G3. cbv beta in G3. unfold user in G3. apply negb_true_iff in G3. rewrite G3 in E.
    rewrite <- !app_assoc in E. change (bs "," ++ ?x) with (44 :: x) in E. destruct (read_value _) as [[w r]|] eqn:ER; [|discriminate].
    assert (w = v) by (destruct (strip (txt ",") r) as [r'|]; [destruct (read_values f r') as [[? ?]|]; [congruence|discriminate]|destruct (strip (txt ")") r); [congruence|discriminate]]). subst w.
    apply read_column_right in ER as [HC ->]; [|exact H1|intros t ->; apply Hb; now left|cbn; tauto]. constructor; [exact HC|].
    change (strip (txt ",") (44 :: ?x)) with (Some x) in E. cbv iota in E. destruct (read_values f _) as [[vs2 r]|] eqn:EV; [|discriminate]. injection E as E1 E2. subst vs2 r.
    eapply IH; [exact H2|intros t Ht; apply Hb; now right|exact (Forall_inv_tail Hu)|exact EV].
Qed.
Lemma read_column_carried rt c v k : stands_for rt c v -> (forall t, v = SStr t -> all_bytes t) -> carried c v -> val_end k ->
  read_value (column_text rt c ++ k) = Some (v, k).
Proof.
  intros H Hb HC Hk. destruct v as [|t|n|s]; try (apply read_column; [exact H|exact HC || exact I|exact Hk]).
  destruct HC as [C1 C2]. specialize (Hb t eq_refl). inversion H as [|? ? Hx Hbit Hbin| |]; subst. destruct (text_of_fmt rt _ _ Hx) as [EF Hn].
  rewrite column_text_plain; [|apply not_true_iff_false; rewrite is_null_spec; intros [X|X]; contradiction|exact Hbit|exact Hbin]. rewrite EF. cbn [app]. rewrite <- app_assoc. apply read_value_str; [assumption|assumption|now apply val_end_nq].
Qed.
Lemma read_columns_carried rt : forall cs vs c v k f,
  Forall2 (stands_for rt) (c :: cs) (v :: vs) -> (forall t, In (SStr t) (v :: vs) -> all_bytes t) -> Forall (fun c => user c = true) (c :: cs) -> Forall2 carried (c :: cs) (v :: vs) ->
  (List.length cs < f)%nat -> read_values f (column_text rt c ++ columns_text rt false cs ++ 41 :: k) = Some (v :: vs, k).
Proof.
  induction cs as [|c' cs IH]; intros vs c v k f H Hb Hu HC Hf; inversion H as [|? ? ? ? H1 H2]; subst; inversion HC as [|? ? ? ? C1 C2]; subst; (destruct f as [|f]; [lia|]); cbn [read_values].
  - inversion H2; subst. cbn [columns_text app]. rewrite (read_column_carried rt c v); [reflexivity|assumption|intros t ->; apply Hb; now left|assumption|cbn; tauto].
  - inversion H2 as [|? v' ? vs' G1 G2]; subst. cbn [columns_text]. pose proof (Forall_inv (Forall_inv_tail Hu)) as G3. cbv beta in G3. unfold user in G3. apply negb_true_iff in G3. rewrite G3.
    rewrite (read_column_carried rt c v); [|assumption|intros t ->; apply Hb; now left|assumption|cbn; tauto]. cbn [List.length] in Hf.
    rewrite <- !app_assoc. change (bs ",") with (txt ","). rewrite strip_app. rewrite (IH vs' c' v' k f); [reflexivity|assumption|intros t Ht; apply Hb; now right|exact (Forall_inv_tail Hu)|assumption|lia].
Qed.
Lemma replace_exact rt db tb row c cs v vs : ~ In 96 db -> ~ In 96 tb -> filter user row = c :: cs ->
  Forall2 (stands_for rt) (c :: cs) (v :: vs) -> (forall t, In (SStr t) (v :: vs) -> all_bytes t) ->
  (read_replace (replace_statement rt tb db row) = Some (db, tb, v :: vs) <-> Forall2 carried (c :: cs) (v :: vs)).
Proof.
  intros Hd Ht Hu H Hb. unfold replace_statement, read_replace.
  assert (Hall : Forall (fun c => user c = true) (c :: cs)).
  { rewrite <- Hu. apply Forall_forall. intros x Hx. apply filter_In in Hx. tauto. }
  change (bs "replace into `") with (txt "replace into " ++ [96]). rewrite <- app_assoc, strip_app.
  change ([96] ++ db ++ ?x) with (96 :: db ++ x).
  change (bs "`.`" ++ ?x) with (96 :: 46 :: 96 :: x). change (bs "` values (" ++ ?x) with (96 :: txt " values (" ++ x).
  rewrite read_table_plain; [|assumption|assumption|cbn; lia]. rewrite strip_app.
  rewrite columns_text_user, Hu. cbn [columns_text]. inversion Hall as [|? ? Hc Hcs]; subst. unfold user in Hc. apply negb_true_iff in Hc.
  rewrite Hc. change (([] : bytes) ++ ?x) with x. change (bs ");") with [41; 59]. rewrite <- app_assoc. set (f := List.length _). split.
  - intro E. destruct (read_values f _) as [[ws r]|] eqn:ER; [|discriminate]. assert (ws = v :: vs) by (destruct r as [|x [|y r]]; try discriminate; destruct x as [|x|x]; try discriminate; repeat (destruct x as [x|x|]; try discriminate); congruence). subst ws.
    eapply read_columns_right; [exact H|exact Hb|exact Hall|exact ER].
  - intro HC. rewrite (read_columns_carried rt cs vs c v [59]); [reflexivity|exact H|exact Hb|exact Hall|exact HC|].
    unfold f. rewrite !app_length. pose proof (columns_text_len rt cs Hcs). pose proof (column_text_len rt c). cbn [List.length]. lia.
Qed.

(** * UPDATE statements *)
(** strings and names written as they are *)
Lemma lex_str_literal k : no_quote k -> forall n s, (List.length s <= n)%nat -> literal s = true -> lex_str (s ++ 39 :: k) = Some (s, k).
Proof.
  intro Hk. induction n as [|n IH]; intros [|c s] Hn H; try (now apply lex_close); cbn [List.length] in Hn; [lia|].
  cbn [app lex_str]. cbn [literal] in H. destruct (Z.eqb_spec c 39); [discriminate|]. destruct (Z.eqb_spec c 92) as [->|].
  - destruct s as [|d s]; [discriminate|]. cbn [app]. apply andb_true_iff in H as [H1 H2]. cbn [List.length] in Hn. rewrite IH by (assumption || lia).
    replace (unescape d) with [92; d]; [reflexivity|]. apply orb_true_iff in H1 as [H1|H1]; apply Z.eqb_eq in H1; subst d; reflexivity.
  - rewrite IH by (assumption || lia). reflexivity.
Qed.
Definition plain_start (k : bytes) : Prop := match k with c :: _ => c <> 39 /\ c <> 92 | [] => True end.
Lemma start_out k v r : plain_start k -> lex_str k = Some (v, r) -> match v with c :: _ => c <> 39 /\ c <> 92 | [] => False end.
Proof.
  destruct k as [|c k]; [discriminate|]. intros [H1 H2]. cbn [lex_str]. destruct (Z.eqb_spec c 39); [contradiction|]. destruct (Z.eqb_spec c 92); [contradiction|].
  destruct (lex_str k) as [[w r']|]; [|discriminate]. intro E. injection E as <- _. now split.
Qed.
Lemma lex_shift k : plain_start k -> forall n s u r, (List.length s <= n)%nat -> Forall (fun c => c = 39 \/ c = 92) u -> u <> [] -> lex_str (s ++ 39 :: k) <> Some (u ++ s, r).
Proof.
  intro Hk. assert (HN : forall u r, Forall (fun c => c = 39 \/ c = 92) u -> u <> [] -> lex_str (39 :: k) <> Some (u ++ [], r)).
  { intros u r Hu Hne E. rewrite lex_close in E by (destruct k; [exact I|exact (proj1 Hk)]). destruct u; [contradiction|discriminate]. }
  induction n as [|n IH]; intros [|c s] u r Hn Hu Hne; try (now apply HN); cbn [List.length] in Hn; [lia|].
  destruct u as [|a u]; [contradiction|]. pose proof (Forall_inv Hu) as Ha. pose proof (Forall_inv_tail Hu) as Hu'. cbv beta in Ha. cbn [app lex_str]. intro E.
  destruct (Z.eqb_spec c 39) as [->|N1].
  - destruct s as [|d s]; cbn [app] in E.
    + change (39 =? 39) with true in E. cbv iota in E. destruct (lex_str k) as [[v r']|] eqn:EK; [|discriminate]. injection E as E1 E2 E3. subst v. apply start_out in EK; [|exact Hk].
      destruct u as [|b u]; cbn [app] in EK; [lia|]. apply Forall_inv in Hu'. cbv beta in Hu'. lia.
    + destruct (Z.eqb_spec d 39) as [->|]; [|discriminate]. destruct (lex_str (s ++ 39 :: k)) as [[v r']|] eqn:EK; [|discriminate]. injection E as E1 E2 E3. subst v.
      cbn [List.length] in Hn. apply (IH s (u ++ [39; 39]) r' ltac:(lia)); [apply Forall_app; split; [exact Hu'|constructor; [auto|constructor; [auto|constructor]]]|destruct u; discriminate|]. etransitivity; [exact EK|]. rewrite <- app_assoc. reflexivity.
  - destruct (Z.eqb_spec c 92) as [->|N2].
    + destruct s as [|d s]; cbn [app] in E.
      * destruct (lex_str k) as [[v r']|] eqn:EK; [|discriminate]. cbn in E. injection E as E1 E2 E3. subst v. apply start_out in EK; [|exact Hk]. destruct u as [|b u]; cbn [app] in EK; [lia|]. apply Forall_inv in Hu'. cbv beta in Hu'. lia.
      * destruct (lex_str (s ++ 39 :: k)) as [[v r']|] eqn:EK; [|discriminate]. cbn [List.length] in Hn.
        assert (D : (unescape d = [92; d] /\ d <> 39 /\ d <> 92) \/ (exists e, unescape d = [e] /\ (e = 39 \/ e = 92 -> d = e))).
        { unfold unescape. repeat (eqcase; [right; eexists; split; [reflexivity|lia]|]). destruct ((d =? 37) || (d =? 95)) eqn:X; [left; split; [reflexivity|lia]|]. right. exists d. split; [reflexivity|tauto]. }
        destruct D as [[D [D1 D2]]|[e [D De]]]; rewrite D in E; cbn [app] in E; injection E as E1 E2 E3.
        -- destruct u as [|b u]; cbn [app] in E2; injection E2 as E2 _; [lia|]. apply Forall_inv in Hu'. cbv beta in Hu'. lia.
        -- subst e v. specialize (De Ha). subst d. apply (IH s (u ++ [92; a]) r' ltac:(lia)); [apply Forall_app; split; [exact Hu'|constructor; [auto|constructor; [auto|constructor]]]|destruct u; discriminate|]. etransitivity; [exact EK|]. rewrite <- app_assoc. reflexivity.
    + destruct (lex_str (s ++ 39 :: k)) as [[v r']|]; [|discriminate]. injection E as E1 _ _. lia.
Qed.
Lemma lex_str_exact k : plain_start k -> forall n s r, (List.length s <= n)%nat -> lex_str (s ++ 39 :: k) = Some (s, r) -> literal s = true /\ r = k.
Proof.
  intro Hk. assert (HN : forall r, lex_str (39 :: k) = Some ([], r) -> literal [] = true /\ r = k).
  { intros r E. rewrite lex_close in E by (destruct k; [exact I|exact (proj1 Hk)]). injection E as <-. now split. }
  induction n as [|n IH]; intros [|c s] r Hn E; try (now apply HN); cbn [List.length] in Hn; [lia|]. cbn [app lex_str] in E. cbn [literal].
  destruct (Z.eqb_spec c 39) as [->|N1].
  - exfalso. destruct s as [|d s]; cbn [app] in E.
    + change (39 =? 39) with true in E. cbv iota in E. destruct (lex_str k) as [[v r']|] eqn:EK; [|discriminate]. injection E as E2 E3. subst v. apply start_out in EK; [exact EK|exact Hk].
    + destruct (Z.eqb_spec d 39) as [->|]; [|discriminate]. destruct (lex_str (s ++ 39 :: k)) as [[v r']|] eqn:EK; [|discriminate]. injection E as E2 E3. subst v.
      revert EK. apply (lex_shift k Hk (List.length s) s [39]); [lia|repeat constructor|discriminate].
  - destruct (Z.eqb_spec c 92) as [->|N2].
    + destruct s as [|d s]; cbn [app] in E; [destruct (lex_str k) as [[v r']|]; discriminate|]. destruct (lex_str (s ++ 39 :: k)) as [[v r']|] eqn:EK; [|discriminate]. cbn [List.length] in Hn.
      assert (D : ((d =? 37) || (d =? 95) = true /\ unescape d = [92; d]) \/ ((d =? 37) || (d =? 95) = false /\ exists e, unescape d = [e] /\ (e = 92 -> d = 92))).
      { destruct ((d =? 37) || (d =? 95)) eqn:X; [left; split; [reflexivity|]; apply orb_true_iff in X as [X|X]; apply Z.eqb_eq in X; subst d; reflexivity|]. right. split; [reflexivity|]. unfold unescape. rewrite X. repeat (eqcase; [eexists; split; [reflexivity|lia]|]). exists d. split; [reflexivity|tauto]. }
      destruct D as [[D0 D]|[D0 [e [D De]]]]; rewrite D in E; cbn [app] in E.
      * injection E as E2 E3. subst v r'. rewrite D0. cbn [andb]. apply (IH s r ltac:(lia) EK).
      * injection E as E1 E2 E3. subst v r'. specialize (De E1). subst d. exfalso. revert EK. apply (lex_shift k Hk (List.length s) s [92]); [lia|constructor; [auto|constructor]|discriminate].
    + destruct (lex_str (s ++ 39 :: k)) as [[v r']|] eqn:EK; [|discriminate]. injection E as E1 E2. subst v r'. apply (IH s r ltac:(lia) EK).
Qed.
Lemma ident_start k v r : no_bq k -> lex_ident k = Some (v, r) -> match v with c :: _ => c <> 96 | [] => False end.
Proof.
  destruct k as [|c k]; [discriminate|]. intros H1. cbn [lex_ident no_bq] in *. destruct (Z.eqb_spec c 96); [contradiction|].
  destruct (lex_ident k) as [[w r']|]; [|discriminate]. intro E. injection E as <- _. exact H1.
Qed.
Lemma ident_close k : no_bq k -> lex_ident (96 :: k) = Some ([], k).
Proof. intro H. apply (lex_ident_plain [] k); [exact (fun X => X)|exact H]. Qed.
Lemma ident_shift k : no_bq k -> forall n s u r, (List.length s <= n)%nat -> Forall (fun c => c = 96) u -> u <> [] -> lex_ident (s ++ 96 :: k) <> Some (u ++ s, r).
Proof.
  intro Hk. assert (HN : forall u r, Forall (fun c => c = 96) u -> u <> [] -> lex_ident (96 :: k) <> Some (u ++ [], r)).
  { intros u r Hu Hne E. rewrite ident_close in E by exact Hk. destruct u; [contradiction|discriminate]. }
  induction n as [|n IH]; intros [|c s] u r Hn Hu Hne; try (now apply HN); cbn [List.length] in Hn; [lia|].
  destruct u as [|a u]; [contradiction|]. pose proof (Forall_inv Hu) as Ha. pose proof (Forall_inv_tail Hu) as Hu'. cbv beta in Ha. cbn [app lex_ident]. intro E.
  destruct (Z.eqb_spec c 96) as [->|N1].
  - destruct s as [|d s]; cbn [app] in E.
    + change (96 =? 96) with true in E. cbv iota in E. destruct (lex_ident k) as [[v r']|] eqn:EK; [|discriminate]. injection E as E1 E2 E3. subst v. apply ident_start in EK; [|exact Hk].
      destruct u as [|b u]; cbn [app] in EK; [lia|]. apply Forall_inv in Hu'. cbv beta in Hu'. lia.
    + destruct (Z.eqb_spec d 96) as [->|]; [|discriminate]. destruct (lex_ident (s ++ 96 :: k)) as [[v r']|] eqn:EK; [|discriminate]. injection E as E1 E2 E3. subst v.
      cbn [List.length] in Hn. apply (IH s (u ++ [96; 96]) r' ltac:(lia)); [apply Forall_app; split; [exact Hu'|constructor; [auto|constructor; [auto|constructor]]]|destruct u; discriminate|]. etransitivity; [exact EK|]. rewrite <- app_assoc. reflexivity.
  - destruct (lex_ident (s ++ 96 :: k)) as [[v r']|]; [|discriminate]. injection E as E1 _ _. lia.
Qed.
Lemma lex_ident_exact k s : no_bq k -> forall r, lex_ident (s ++ 96 :: k) = Some (s, r) -> ~ In 96 s /\ r = k.
Proof.
  intro Hk. induction s as [|c s IH]; intros r E.
  - cbn [app] in E. rewrite ident_close in E by exact Hk. injection E as <-. split; [exact (fun X => X)|reflexivity].
  - cbn [app lex_ident] in E. destruct (Z.eqb_spec c 96) as [->|N1].
    + exfalso. destruct s as [|d s]; cbn [app] in E.
      * change (96 =? 96) with true in E. cbv iota in E. destruct (lex_ident k) as [[v r']|] eqn:EK; [|discriminate]. injection E as E2 E3. subst v. apply ident_start in EK; [exact EK|exact Hk].
      * destruct (Z.eqb_spec d 96) as [->|]; [|discriminate]. destruct (lex_ident (s ++ 96 :: k)) as [[v r']|] eqn:EK; [|discriminate]. injection E as E2 E3. subst v.
        revert EK. apply (ident_shift k Hk (List.length s) s [96]); [lia|repeat constructor|discriminate].
    + destruct (lex_ident (s ++ 96 :: k)) as [[v r']|] eqn:EK; [|discriminate]. injection E as E1 E2. subst v r'. destruct (IH r eq_refl) as [H1 H2]. split; [|exact H2]. intros [X|X]; [lia|contradiction].
Qed.
Lemma read_table_exact db tb k r : no_bq k -> read_table (96 :: db ++ 96 :: 46 :: 96 :: tb ++ 96 :: k) = Some (db, tb, r) -> ~ In 96 db /\ ~ In 96 tb /\ r = k.
Proof.
  intros Hk. unfold read_table. change (txt "`") with [96]. change (txt ".`") with [46; 96]. change (strip [96] (96 :: ?x)) with (Some x). cbv iota.
  destruct (lex_ident (db ++ 96 :: 46 :: 96 :: tb ++ 96 :: k)) as [[v r1]|] eqn:E1; [|discriminate].
  assert (D : forall r2, strip [46; 96] r1 = Some r2 -> lex_ident r2 = Some (tb, r) -> v = db -> ~ In 96 db /\ ~ In 96 tb /\ r = k).
  { intros r2 S1 S2 ->. apply lex_ident_exact in E1 as [H1 ->]; [|cbn; lia]. cbn in S1. injection S1 as <-. apply lex_ident_exact in S2 as [H2 ->]; [|exact Hk]. auto. }
  destruct (strip [46; 96] r1) as [r2|] eqn:E2; [|discriminate]. destruct (lex_ident r2) as [[w r3]|] eqn:E3; [|discriminate]. intro E. injection E as -> -> ->. exact (D r2 eq_refl E3 eq_refl).
Qed.

Lemma replace_names rt db tb row vs : read_replace (replace_statement rt tb db row) = Some (db, tb, vs) -> ~ In 96 db /\ ~ In 96 tb.
Proof.
  unfold replace_statement, read_replace. change (bs "replace into `") with (txt "replace into " ++ [96]). rewrite <- app_assoc, strip_app.
  change ([96] ++ db ++ ?x) with (96 :: db ++ x). change (bs "`.`" ++ ?x) with (96 :: 46 :: 96 :: x). change (bs "` values (" ++ ?x) with (96 :: txt " values (" ++ x).
  destruct (read_table _) as [[[db' tb'] r]|] eqn:ET; [|discriminate]. intro E.
  assert (EN : db' = db /\ tb' = tb).
  { destruct (strip _ r) as [r2|]; [|discriminate]. destruct (read_values _ r2) as [[ws r3]|]; [|discriminate].
    destruct r3 as [|x [|y r3]]; try discriminate; destruct x as [|x|x]; try discriminate; repeat (destruct x as [x|x|]; try discriminate). injection E as -> -> _. now split. }
  destruct EN as [-> ->]. apply read_table_exact in ET; [tauto|cbn; lia].
Qed.
Definition item : Type := (bytes * sqlval)%type.
Definition item_text (i : item) : bytes :=
  96 :: fst i ++ 96 :: 61 :: match snd i with SNull => null_text | SStr s => 39 :: s ++ [39] | _ => [] end.
Definition clean_item (i : item) : Prop :=
  ~ In 96 (fst i) /\ match snd i with SNull => True | SStr s => literal s = true | _ => False end.
Lemma read_eq_item i k : clean_item i -> no_quote k -> read_eq (item_text i ++ k) = Some (fst i, snd i, k).
Proof.
  destruct i as [n v]. intros [Hn Hv] Hk. cbn [fst snd] in *. unfold item_text, read_eq. cbn [fst snd].
  change (txt "`") with [96]. cbn [app strip]. change (96 =? 96) with true. cbv iota.
  rewrite <- app_assoc. cbn [app]. rewrite lex_ident_plain; [|exact Hn|cbn; lia].
  change (txt "=") with [61]. cbn [strip]. change (61 =? 61) with true. cbv iota.
  destruct v as [|s| |]; try contradiction; [reflexivity|].
  unfold read_plain. cbn [app]. rewrite <- app_assoc. cbn [app].
  change (txt "NULL") with [78; 85; 76; 76]. change (txt "'") with [39]. cbn [strip].
  change (78 =? 39) with false. change (39 =? 39) with true. cbv iota. now rewrite (lex_str_literal k Hk (List.length s)).
Qed.
Definition conj_end (k : bytes) : Prop := strip (txt " and ") k = None /\ no_quote k.
Lemma read_conj_items : forall items i k f, Forall clean_item (i :: items) -> conj_end k ->
  (List.length items < f)%nat ->
  read_conj f (join_and (map item_text (i :: items)) ++ k) = Some (i :: items, k).
Proof.
  induction items as [|j items IH]; intros i k f H [Hk1 Hk2] Hf; inversion H as [|? ? Hi Hr]; subst;
    (destruct f as [|f]; [lia|]); cbn [read_conj].
  - cbn [map join_and]. rewrite read_eq_item by assumption. rewrite Hk1. destruct i; reflexivity.
  - cbn [map]. cbn [join_and]. fold (map item_text (j :: items)).
    change (match map item_text items with [] => item_text j | _ :: _ => item_text j ++ bs " and " ++ join_and (map item_text items) end)
      with (join_and (map item_text (j :: items))).
    rewrite <- !app_assoc. rewrite read_eq_item; [|assumption|cbn; lia].
    change (bs " and ") with (txt " and "). rewrite strip_app. rewrite IH; [destruct i; reflexivity|assumption|split; assumption|].
    cbn [List.length] in Hf. lia.
Qed.
Lemma join_len : forall items, (List.length items <= List.length (join_and (map item_text items)))%nat.
Proof.
  assert (G : forall items i, (List.length items < List.length (join_and (map item_text (i :: items))))%nat).
  { induction items as [|j items IH]; intro i.
    - cbn [map join_and item_text List.length]. lia.
    - specialize (IH j). change (map item_text (i :: j :: items)) with (item_text i :: map item_text (j :: items)).
      change (join_and (item_text i :: map item_text (j :: items)))
        with (item_text i ++ bs " and " ++ join_and (map item_text (j :: items))).
      rewrite !app_length. cbn [List.length bs]. lia. }
  intros [|i items]; [cbn; lia|]. specialize (G items i). cbn [List.length]. lia.
Qed.

(** the statement for a set list and a key *)
Definition update_text (db tb : bytes) (sets keys : list item) : bytes :=
  txt "update " ++ 96 :: db ++ 96 :: 46 :: 96 :: tb ++ 96 :: txt " set "
  ++ join_and (map item_text sets) ++ txt " where " ++ join_and (map item_text keys) ++ [59].
Lemma update_reads db tb s sets k keys : ~ In 96 db -> ~ In 96 tb ->
  Forall clean_item (s :: sets) -> Forall clean_item (k :: keys) ->
  read_update (update_text db tb (s :: sets) (k :: keys)) = Some (db, tb, [(s, sets)], k :: keys).
Proof.
  intros Hd Ht Hs Hk. unfold update_text, read_update. rewrite strip_app.
  rewrite read_table_plain; [|assumption|assumption|cbn; lia]. rewrite strip_app.
  set (whole := join_and (map item_text (s :: sets)) ++ _).
  assert (Hw : (List.length (s :: sets) <= List.length whole)%nat).
  { unfold whole. rewrite app_length. pose proof (join_len (s :: sets)). lia. }
  destruct (List.length whole) as [|f] eqn:E; [cbn [List.length] in Hw; lia|].
  cbn [read_set]. rewrite E. unfold whole at 1.
  rewrite read_conj_items; [|assumption|split; [reflexivity|cbn; lia]|cbn [List.length] in Hw; lia].
  destruct s as [c v]. change (strip (txt ",") (txt " where " ++ _)) with (@None (list Z)). cbv iota beta.
  rewrite strip_app.
  rewrite read_conj_items; [reflexivity|assumption|split; [reflexivity|cbn; lia]|].
  rewrite app_length. pose proof (join_len (k :: keys)). cbn [List.length] in *. lia.
Qed.

(** when a statement is read as it was meant *)
Definition writable (i : item) : Prop := match snd i with SNull | SStr _ => True | _ => False end.
Lemma read_eq_exact i k r : writable i -> plain_start k -> read_eq (item_text i ++ k) = Some (fst i, snd i, r) -> clean_item i /\ r = k.
Proof.
  destruct i as [n v]. intros Hw Hk. unfold item_text, read_eq, clean_item, writable in *. cbn [fst snd] in *. change (txt "`") with [96]. cbn [app]. change (strip [96] (96 :: ?x)) with (Some x). cbv iota.
  rewrite <- app_assoc. cbn [app]. destruct (lex_ident _) as [[c r1]|] eqn:E1; [|discriminate]. destruct (strip (txt "=") r1) as [r2|] eqn:E2; [|discriminate].
  destruct (read_plain r2) as [[w r3]|] eqn:E3; [|discriminate]. intro E. injection E as -> -> ->. apply lex_ident_exact in E1 as [H1 ->]; [|cbn; lia]. change (strip (txt "=") (61 :: ?x)) with (Some x) in E2. injection E2 as <-.
  destruct v as [|s| |]; try contradiction.
  - split; [split; [exact H1|exact I]|]. change (read_plain (null_text ++ k)) with (Some (SNull, k)) in E3. congruence.
  - cbn [app] in E3. rewrite <- app_assoc in E3. cbn [app] in E3. unfold read_plain in E3. change (strip (txt "NULL") (39 :: ?x)) with (@None (list Z)) in E3. cbv iota in E3. change (strip (txt "'") (39 :: ?x)) with (Some x) in E3. cbv iota in E3.
    destruct (lex_str (s ++ 39 :: k)) as [[w r2]|] eqn:E4; [|discriminate]. injection E3 as -> ->. apply (lex_str_exact k Hk (List.length s)) in E4 as [H2 ->]; [|lia]. auto.
Qed.
Lemma read_conj_some f t l r : read_conj f t = Some (l, r) -> l <> [].
Proof.
  destruct f as [|f]; [discriminate|]. cbn [read_conj]. destruct (read_eq t) as [[[c v] r1]|]; [|discriminate]. destruct (strip (txt " and ") r1) as [r2|].
  - destruct (read_conj f r2) as [[l2 r3]|]; [|discriminate]. intro E. injection E as <- _. discriminate.
  - intro E. injection E as <- _. discriminate.
Qed.
Lemma read_conj_exact : forall items i k f r, Forall writable (i :: items) -> plain_start k -> strip (txt " and ") k = None ->
  read_conj f (join_and (map item_text (i :: items)) ++ k) = Some (i :: items, r) -> Forall clean_item (i :: items) /\ r = k.
Proof.
  induction items as [|j items IH]; intros i k f r Hw Hk1 Hk2 E; (destruct f as [|f]; [discriminate|]); cbn [read_conj] in E.
  - cbn [map join_and] in E. destruct (read_eq _) as [[[c v] r1]|] eqn:ER; [|discriminate].
    assert (EI : (c, v) = i) by (destruct (strip (txt " and ") r1) as [r2|]; [destruct (read_conj f r2) as [[l r3]|] eqn:EC; [|discriminate]; apply read_conj_some in EC; congruence|congruence]). subst i.
    apply read_eq_exact in ER as [H1 ->]; [|exact (Forall_inv Hw)|exact Hk1]. rewrite Hk2 in E. split; [constructor; [exact H1|constructor]|congruence].
  - change (map item_text (i :: j :: items)) with (item_text i :: map item_text (j :: items)) in E.
    change (join_and (item_text i :: map item_text (j :: items))) with (item_text i ++ txt " and " ++ join_and (map item_text (j :: items))) in E. rewrite <- !app_assoc in E.
    destruct (read_eq _) as [[[c v] r1]|] eqn:ER; [|discriminate].
    assert (EI : (c, v) = i) by (destruct (strip (txt " and ") r1) as [r2|]; [destruct (read_conj f r2) as [[l r3]|] eqn:EC; [|discriminate]; congruence|congruence]). subst i.
    apply read_eq_exact in ER as [H1 ->]; [|exact (Forall_inv Hw)|split; discriminate]. rewrite strip_app in E. destruct (read_conj f _) as [[l r3]|] eqn:EC; [|discriminate]. injection E as E1 E2. subst l r3.
    apply IH in EC as [H2 ->]; [|exact (Forall_inv_tail Hw)|exact Hk1|exact Hk2]. split; [constructor; [exact H1|exact H2]|reflexivity].
Qed.
Lemma update_exact db tb sets keys : Forall writable sets -> Forall writable keys ->
  (read_update (update_text db tb sets keys) = Some (db, tb, map (fun i => (fst i, snd i, [])) sets, keys)
   <-> ~ In 96 db /\ ~ In 96 tb /\ List.length sets = 1%nat /\ keys <> [] /\ Forall clean_item sets /\ Forall clean_item keys).
Proof.
  intros Hs Hk. split.
  - intro E. unfold update_text, read_update in E. rewrite strip_app in E. destruct (read_table _) as [[[db' tb'] r1]|] eqn:ET; [|discriminate].
    assert (EN : db' = db /\ tb' = tb).
    { destruct (strip _ r1) as [r2|]; [|discriminate]. destruct (read_set _ r2) as [[ss r3]|]; [|discriminate]. destruct (strip _ r3) as [r4|]; [|discriminate]. destruct (read_conj _ r4) as [[cs r5]|]; [|discriminate].
      destruct r5 as [|x [|y r5]]; try discriminate; destruct x as [|x|x]; try discriminate; repeat (destruct x as [x|x|]; try discriminate). injection E as -> -> _ _. now split. }
    destruct EN as [-> ->]. apply read_table_exact in ET as [N1 [N2 ->]]; [|cbn; lia]. rewrite strip_app in E. set (tail := txt " where " ++ join_and (map item_text keys) ++ [59]) in *.
    destruct (read_set _ _) as [[ss r3]|] eqn:ES; [|discriminate].
    assert (EX : ss = map (fun i : item => (fst i, snd i, [])) sets /\ (forall r4, strip (txt " where ") r3 = Some r4 -> exists f r5, read_conj f r4 = Some (keys, r5))).
    { destruct (strip _ r3) as [r4|]; [|discriminate]. destruct (read_conj _ r4) as [[cs r5]|] eqn:EC; [|discriminate].
      destruct r5 as [|x [|y r5]]; try discriminate; destruct x as [|x|x]; try discriminate; repeat (destruct x as [x|x|]; try discriminate). injection E as -> ->. split; [reflexivity|]. intros r5 X. injection X as <-. eauto. }
    destruct EX as [-> EK]. clear E. destruct (List.length (join_and (map item_text sets) ++ tail)) as [|f] eqn:EL; [discriminate|]. cbn [read_set] in ES. rewrite EL in ES.
    destruct (read_conj (S f) _) as [[l r]|] eqn:EC; [|discriminate]. destruct l as [|[c v] more]; [discriminate|].
    assert (EM : (exists sets', sets = (c, v) :: sets') /\ more = [] /\ (strip (txt ",") r = None -> r3 = r)).
    { destruct sets as [|[n w] sets]; [|assert (X : (n, w) = (c, v) /\ more = [] /\ (strip (txt ",") r = None -> r3 = r))].
      - destruct (strip (txt ",") r) as [r'|]; [destruct (read_set f r') as [[? ?]|]; discriminate|discriminate].
      - cbn [map fst snd] in ES. destruct (strip (txt ",") r) as [r'|]; [destruct (read_set f r') as [[? ?]|]; [|discriminate]; injection ES as -> -> -> _ _; split; [reflexivity|split; [reflexivity|discriminate]]|]. injection ES as -> -> -> _ ->. auto.
      - destruct X as [X1 X2]. split; [exists sets; now rewrite X1|exact X2]. }
    destruct EM as [[sets' ->] [-> Hr]]. destruct sets' as [|s2 sets'].
    + apply read_conj_exact in EC as [C1 ->]; [|exact Hs|split; discriminate|reflexivity]. specialize (Hr eq_refl). subst r3. destruct (EK _ (strip_app _ _)) as [g [r5 EC]].
      split; [exact N1|]. split; [exact N2|]. split; [reflexivity|]. pose proof (read_conj_some _ _ _ _ EC) as Hne. split; [exact Hne|]. split; [exact C1|]. destruct keys as [|k keys]; [contradiction|].
      apply read_conj_exact in EC as [C2 _]; [exact C2|exact Hk|split; discriminate|reflexivity].
    + exfalso. cbn [read_conj] in EC. change (map item_text ((c, v) :: s2 :: sets')) with (item_text (c, v) :: map item_text (s2 :: sets')) in EC.
      change (join_and (item_text (c, v) :: map item_text (s2 :: sets'))) with (item_text (c, v) ++ txt " and " ++ join_and (map item_text (s2 :: sets'))) in EC. rewrite <- !app_assoc in EC.
      destruct (read_eq _) as [[[c' v'] r1]|] eqn:ER; [|discriminate].
      assert (EI : c' = c /\ v' = v) by (destruct (strip (txt " and ") r1) as [r2|]; [destruct (read_conj f r2) as [[l r4]|] eqn:EC2; [|discriminate]; injection EC as -> -> _ _; now split|injection EC as -> -> _; now split]). destruct EI as [-> ->].
      apply (read_eq_exact (c, v)) in ER as [H1 ->]; [|exact (Forall_inv Hs)|split; discriminate]. rewrite strip_app in EC. destruct (read_conj f _) as [[l r4]|] eqn:EC2; [|discriminate]. injection EC as -> _. apply read_conj_some in EC2. contradiction.
  - intros [N1 [N2 [L [Hne [C1 C2]]]]]. destruct sets as [|s [|s2 sets]]; try discriminate. destruct keys as [|k keys]; [contradiction|]. cbn [map]. pose proof (update_reads db tb s [] k keys N1 N2 C1 C2) as X. destruct s. exact X.
Qed.

(** what the tool's values become *)
Definition sql_of (rt : runtime) (v : gval) : sqlval :=
  match v with VNil => SNull | _ => SStr (fmt_v rt v) end.
Lemma set_item rt c : set_value_text rt c = item_text (c_name c, sql_of rt (c_value c)).
Proof.
  unfold set_value_text, item_text, sql_of. cbn [fst snd]. destruct (c_value c); cbn [fst snd];
    cbn -[fmt_v app]; cbn [app]; reflexivity.
Qed.
Lemma where_item rt kv : snd kv <> VNil -> where_text rt kv = item_text (fst kv, sql_of rt (snd kv)).
Proof.
  intro H. unfold where_text, item_text, sql_of. cbn [fst snd]. destruct (snd kv); [contradiction|..];
    cbn -[fmt_v app]; cbn [app]; reflexivity.
Qed.
Lemma update_is_text rt t keys cols : Forall (fun kv => snd kv <> VNil) keys ->
  update_statement rt t keys cols
  = update_text (t_db t) (t_name t) (map (fun c => (c_name c, sql_of rt (c_value c))) cols)
      (map (fun kv => (fst kv, sql_of rt (snd kv))) keys).
Proof.
  intro H. unfold update_statement, update_text. rewrite !map_map.
  rewrite (map_ext (set_value_text rt) (fun c => item_text (c_name c, sql_of rt (c_value c)))) by apply set_item.
  replace (map (where_text rt) keys) with (map (fun kv => item_text (fst kv, sql_of rt (snd kv))) keys).
  2:{ clear cols. induction H as [|kv keys Hkv _ IH]; [reflexivity|]. cbn [map]. now rewrite where_item, IH. }
  reflexivity.
Qed.
