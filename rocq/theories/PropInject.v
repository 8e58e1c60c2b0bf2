(** C132: no file can put SQL of its own into the output of the data commands.
    C133: the SQL mode NO_BACKSLASH_ESCAPES. *)
From Coq Require Import String ZifyBool.
From Verif Require Import GoBase Utils Ibdata Redo Cmd SpecInno SpecText SpecSql SpecRecord SpecRow SpecPage SpecDict SpecTool SpecCmd SpecChars SpecLine SpecInject
  PBase PWire PValue PText PRec PPage PSql PFile PDict POut PBuild PTool PLine PropCmd PropTool PropDict PropPrefix PropChars PropLine.
Local Open Scope string_scope.
Local Open Scope list_scope.
Local Open Scope Z_scope.

(** * C132 *)
Definition clean (l : list Z) : bool := forallb (fun c => negb (existsb (Z.eqb c) [39; 96; 34; 35; 45; 47])) l.
Lemma out_clean l r o : clean l = true -> outside r o -> outside (l ++ r) (l ++ o).
Proof.
  intros H Hr. induction l as [|c l IH]; [exact Hr|]. cbn [clean forallb] in H. apply andb_true_iff in H as [H1 H2]. cbn [app]. cbn [existsb] in H1.
  apply out_byte; [cbn [In]; lia|lia|lia|]. now apply IH.
Qed.
Lemma out_quoted s k o : no_quote k -> outside k o -> outside (39 :: EscapeValue s ++ 39 :: k) (39 :: 39 :: o).
Proof.
  intros Hk H. rewrite escape_any. destruct (beq _ _).
  - cbn [app]. eapply out_string; [apply lex_close; exact Hk|exact H].
  - eapply out_string; [rewrite lex_esc, lex_close by exact Hk; reflexivity|exact H].
Qed.
Lemma out_ident n k o : ~ In 96 n -> no_bq k -> outside k o -> outside (96 :: n ++ 96 :: k) (96 :: 96 :: o).
Proof. intros Hn Hk H. eapply out_name; [now apply lex_ident_plain|exact H]. Qed.
Lemma out_column rt c k o : no_quote k -> outside k o -> exists v, In v shapes /\ outside (column_text rt c ++ k) (v ++ o).
Proof.
  intros Hk H. unfold column_text. exists ((if c_mysql c =? MYSQL_TYPE_BIT then txt "b" else []) ++ (if c_binary c then txt "unhex(" else []) ++ (if negb (is_null_value (c_value c)) then txt "''" else txt "NULL") ++ (if c_binary c then txt ")" else [])).
  split; [destruct (_ =? _), (c_binary c), (is_null_value _); unfold shapes; cbn; tauto|].
  rewrite <- !app_assoc. destruct (c_mysql c =? MYSQL_TYPE_BIT); (apply (out_clean (bs "b")); [reflexivity|]) || cbn [app];
  (destruct (c_binary c); [apply (out_clean (bs "unhex(")); [reflexivity|]|cbn [app]]);
  (destruct (is_null_value (c_value c)); cbn [negb]; [apply (out_clean (bs "NULL")); [reflexivity|]|rewrite <- !app_assoc; change (bs "'" ++ ?x) with (39 :: x); change (txt "''" ++ ?x) with (39 :: 39 :: x); apply out_quoted]).
  all: try (apply (out_clean (bs ")")); [reflexivity|exact H]); try exact H; try exact Hk; try (cbn; lia).
Qed.
Lemma listed_commas v vs : listed (v :: vs) = v ++ flat_map (fun x => txt "," ++ x) vs.
Proof. revert v. induction vs as [|x vs IH]; intro v; [cbn; now rewrite app_nil_r|]. change (listed (v :: x :: vs)) with (v ++ txt "," ++ listed (x :: vs)). rewrite IH. cbn [flat_map]. now rewrite <- app_assoc. Qed.
Lemma out_columns rt cols k o : no_quote k -> outside k o -> forall first, exists vs, Forall (fun v => In v shapes) vs
  /\ outside (columns_text rt first cols ++ k) ((if first then listed vs else flat_map (fun x => txt "," ++ x) vs) ++ o)
  /\ (first = false -> no_quote (columns_text rt first cols ++ k)).
Proof.
  intros Hk H. induction cols as [|c cols IH]; intro first; cbn [columns_text].
  - exists []. split; [constructor|]. split; [destruct first; exact H|intros _; exact Hk].
  - destruct (internal_name (c_name c)); [apply IH|]. destruct (IH false) as [vs [F [O N]]]. destruct (out_column rt c _ _ (N eq_refl) O) as [v [Hv Ov]].
    exists (v :: vs). split; [now constructor|]. destruct first.
    + split; [|discriminate]. cbn [app]. rewrite listed_commas, <- !app_assoc. exact Ov.
    + split; [|intros _; cbn; lia]. cbn [flat_map]. rewrite <- !app_assoc. apply (out_clean (bs ",")); [reflexivity|]. exact Ov.
Qed.
Lemma statement_only rt db tb row : ~ In 96 db -> ~ In 96 tb -> only_replace (replace_statement rt tb db row).
Proof.
  intros Hd Ht. destruct (out_columns rt row (bs ");") (bs ");")) with (first := true) as [vs [F [O _]]]; [cbn; lia|apply (out_clean (bs ");") [] []); [reflexivity|constructor]|].
  exists vs. split; [exact F|]. unfold replace_statement. change (bs "replace into `") with (txt "replace into " ++ [96]). change (bs "`.`") with [96; 46; 96]. change (bs "` values (") with (96 :: txt " values (").
  change (txt "replace into ``.`` values (") with (txt "replace into " ++ 96 :: 96 :: 46 :: 96 :: 96 :: txt " values ("). rewrite <- !app_assoc. apply out_clean; [reflexivity|]. cbn [app].
  apply out_ident; [exact Hd|cbn; lia|]. apply (out_clean [46]); [reflexivity|]. apply out_ident; [exact Ht|cbn; lia|]. apply (out_clean (txt " values (")); [reflexivity|]. exact O.
Qed.
(** For all files whatsoever: every line is one REPLACE statement, all of whose
    bytes outside of quotes are fixed - nothing there comes from the files -, or
    the DECIMAL message, or the error that ended the command, the last line. *)
Theorem C132_only_replace : forall fuel rt files op sys tfile db tb, ~ In 96 db -> ~ In 96 tb ->
  exists lines last, fst (FromDataFile fuel rt files op sys tfile db tb) = lines ++ last
    /\ Forall (fun line => only_replace line \/ line = decimal_message) lines
    /\ (last = [] \/ exists e, last = [e] /\ one_line e
          /\ ((exists tm, snd (ParseDictPage fuel rt (files sys)) = Ok (tm, Some e)) \/ exists tm, snd (ParseDataPage fuel rt tm (files tfile) db tb (is_recovery op)) = Ok (Some e))).
Proof.
  intros fuel rt files op sys tfile db tb Hd Ht. unfold FromDataFile. pose proof (dict_silent rt fuel (files sys)) as Hs. pose proof (dict_error fuel rt (files sys)) as He.
  destruct (ParseDictPage fuel rt (files sys)) as [o r]. cbn [fst] in Hs. subst o. unfold calm_error in He. cbn [snd] in He |- *. destruct r as [[tm [e|]]| |]; cbn [wbind].
  - exists [], [e]. split; [reflexivity|]. split; [constructor|]. right. exists e. split; [reflexivity|]. split; [exact (He tm e eq_refl)|]. left. now exists tm.
  - assert (HO : wout (fun line => only_replace line \/ line = decimal_message) (ParseDataPage fuel rt tm (files tfile) db tb (is_recovery op))).
    { apply wo_dataPage; [intro row; left; now apply statement_only|]. apply Forall_forall. intros c _ _ _. now right. }
    pose proof (data_error fuel rt tm (files tfile) db tb (is_recovery op)) as HE.
    match goal with |- context [ParseDataPage ?a ?b ?c ?x ?y ?z ?w] => destruct (ParseDataPage a b c x y z w) as [o r] eqn:EP end.
    unfold wout in HO. cbn [fst] in HO.
    destruct r as [[e|]| |]; cbn [fst snd say wret app].
    + exists o, [e]. split; [cbn; reflexivity|]. split; [exact HO|]. right. exists e. split; [reflexivity|]. split; [now apply HE|]. right. exists tm. now rewrite EP.
    + exists o, []. split; [cbn; now rewrite !app_nil_r|]. split; [exact HO|now left].
    + exists o, []. split; [cbn; now rewrite ?app_nil_r|]. split; [exact HO|now left].
    + exists o, []. split; [cbn; now rewrite ?app_nil_r|]. split; [exact HO|now left].
  - exists [], []. split; [reflexivity|]. split; [constructor|now left].
  - exists [], []. split; [reflexivity|]. split; [constructor|now left].
Qed.
Print Assumptions C132_only_replace.
Lemma byte_inv c r o : outside (c :: r) o -> c <> 39 -> c <> 96 -> exists o', o = c :: o' /\ outside r o'.
Proof. intros H N1 N2. inversion H; subst; [contradiction|contradiction|eauto]. Qed.
Lemma string_inv r o : outside (39 :: r) o -> exists v k o', lex_str r = Some (v, k) /\ o = 39 :: 39 :: o' /\ outside k o'.
Proof. intro H. inversion H; subst; [eauto 6|]. exfalso. match goal with X : ~ In 39 _ |- _ => apply X; now left end. Qed.
Lemma name_inv r o : outside (96 :: r) o -> exists v k o', lex_ident r = Some (v, k) /\ o = 96 :: 96 :: o' /\ outside k o'.
Proof. intro H. inversion H; subst; [eauto 6|]. exfalso. match goal with X : ~ In 96 _ |- _ => apply X; right; now left end. Qed.
(** A value that would be a statement of its own stays in its quotes; a line
    in which it does not is none of [only_replace]. *)
Example C132_case : (forall rt, only_replace (replace_statement rt (txt "t") (txt "d") [mkColumn (txt "v") 12 15 0 50 (VStr (txt "'); drop table x; -- ")) false false false 0]))
  /\ ~ only_replace (txt "replace into `d`.`t` values (''); drop table x;").
Proof.
  split; [intro rt; apply statement_only; cbn; intuition discriminate|].
  assert (L : forall p r o, clean p = true -> outside (p ++ r) o -> exists o', o = p ++ o' /\ outside r o').
  { induction p as [|c p IH]; intros r o Hc Ho; [now exists o|]. cbn [clean forallb existsb] in Hc. apply andb_true_iff in Hc as [H1 H2]. cbn [app] in Ho. apply byte_inv in Ho as [o1 [-> Ho]]; [|lia|lia].
    destruct (IH r o1 H2 Ho) as [o' [-> Hr]]. now exists o'. }
  intros [vs [F H]]. change (txt "replace into `d`.`t` values (''); drop table x;") with (txt "replace into " ++ 96 :: txt "d`.`t` values (''); drop table x;") in H. apply L in H as [o1 [E1 H]]; [|reflexivity].
  apply name_inv in H as [v [k [o2 [E2 [-> H]]]]]. injection E2 as <- <-. apply (L (txt ".") (96 :: txt "t` values (''); drop table x;")) in H as [o3 [-> H]]; [|reflexivity].
  apply name_inv in H as [v [k [o4 [E2 [-> H]]]]]. injection E2 as <- <-. apply (L (txt " values (") (39 :: txt "'); drop table x;")) in H as [o5 [-> H]]; [|reflexivity].
  apply string_inv in H as [v [k [o6 [E2 [-> H]]]]]. injection E2 as <- <-. apply (L (txt "); drop table x;") []) in H as [o7 [-> H]]; [|reflexivity]. inversion H. subst o7. clear H L.
  assert (E : listed vs ++ txt ");" = txt "''); drop table x;") by (apply (f_equal (skipn 27)) in E1; exact E1). clear E1.
  destruct vs as [|x vs]; [discriminate E|]. rewrite listed_commas in E. inversion F as [|? ? F1 F2]; subst.
  assert (X : exists p, flat_map (fun v => txt "," ++ v) vs ++ txt ");" = p /\ x ++ p = txt "''); drop table x;") by (eexists; split; [reflexivity|]; now rewrite <- app_assoc in E). destruct X as [p [Ep E']].
  unfold shapes in F1. cbn [In] in F1. repeat (destruct F1 as [<-|F1]; [try discriminate E'|]); [|contradiction].
  injection E' as ->. destruct vs as [|y vs]; [discriminate Ep|discriminate Ep].
Qed.

(** * C133 *)
Lemma plain_tail p r v k : ~ In 39 p -> plain_str (p ++ r) = Some (v, k) -> exists w, v = p ++ w /\ plain_str r = Some (w, k).
Proof.
  revert v. induction p as [|c p IH]; intros v Hp H; [now exists v|]. cbn [app plain_str] in H. cbn [In] in Hp. destruct (Z.eqb_spec c 39); [lia|].
  destruct (plain_str (p ++ r)) as [[v' k']|] eqn:E; [|discriminate]. injection H as <- <-. destruct (IH v' ltac:(tauto) eq_refl) as [w [-> H]]. now exists w.
Qed.
Lemma plain_app p r v k : ~ In 39 p -> plain_str r = Some (v, k) -> plain_str (p ++ r) = Some (p ++ v, k).
Proof.
  intros Hp H. induction p as [|c p IH]; [exact H|]. cbn [app plain_str]. cbn [In] in Hp. destruct (Z.eqb_spec c 39); [lia|]. now rewrite IH by tauto.
Qed.
Lemma plain_close k : no_quote k -> plain_str (39 :: k) = Some ([], k).
Proof. intro H. cbn [plain_str]. change (39 =? 39) with true. cbv iota. destruct k as [|c k]; [reflexivity|]. cbn in H. destruct (Z.eqb_spec c 39); [contradiction|reflexivity]. Qed.
Lemma spell_cases c : (In c backslashed /\ exists e, spell c = [92; e] /\ (c <> 39 -> e <> 39)) \/ (~ In c backslashed /\ spell c = [c]).
Proof.
  unfold spell, backslashed. repeat match goal with |- context [if ?x =? ?y then _ else _] => destruct (Z.eqb_spec x y) as [->|?]; [left; split; [cbn; tauto|eexists; split; [reflexivity|intros _; vm_compute; discriminate]]|] end.
  destruct (Z.eqb_spec c 34) as [->|]; [left; split; [cbn; tauto|eexists; split; [reflexivity|lia]]|]. destruct (Z.eqb_spec c 39) as [->|]; [left; split; [cbn; tauto|eexists; split; [reflexivity|lia]]|].
  destruct (Z.eqb_spec c 92) as [->|]; [left; split; [cbn; tauto|eexists; split; [reflexivity|lia]]|]. right. split; [cbn [In]; lia|reflexivity].
Qed.
Lemma spell_length s : (List.length s <= List.length (flat_map spell s))%nat /\ (List.length s = List.length (flat_map spell s) -> forall c, In c s -> ~ In c backslashed).
Proof.
  induction s as [|c s [I1 I2]]; [split; [cbn; lia|intros _ c []]|]. cbn [flat_map]. rewrite app_length. destruct (spell_cases c) as [[_ [e [-> _]]]|[N ->]]; cbn [List.length].
  - split; [lia|intro; lia].
  - split; [lia|]. intros E x [<-|Hx]; [exact N|]. apply I2; [lia|exact Hx].
Qed.
Lemma spell_none s : (forall c, In c s -> ~ In c backslashed) -> flat_map spell s = s.
Proof. intro H. induction s as [|c s IH]; [reflexivity|]. cbn [flat_map]. destruct (spell_cases c) as [[X _]|[_ ->]]; [exfalso; exact (H c (or_introl eq_refl) X)|]. cbn [app]. f_equal. apply IH. intros; apply H; now right. Qed.
Lemma spell_no_quote s : ~ In 39 s -> ~ In 39 (flat_map spell s).
Proof.
  intros H X. apply in_flat_map in X as [c [Hc X]]. assert (N : c <> 39) by congruence. destruct (spell_cases c) as [[_ [e [E He]]]|[_ E]]; rewrite E in X; cbn [In] in X; [specialize (He N); lia|lia].
Qed.
Lemma first_quote s : ~ In 39 s \/ exists a b, s = a ++ 39 :: b /\ ~ In 39 a.
Proof.
  induction s as [|c s IH]; [left; intros []|]. destruct (Z.eq_dec c 39) as [->|N]; [right; exists [], s; split; [reflexivity|intros []]|].
  destruct IH as [H|[a [b [-> H]]]]; [left; intros [X|X]; [contradiction|now apply H]|]. right. exists (c :: a), b. split; [reflexivity|]. intros [X|X]; [contradiction|now apply H].
Qed.
Lemma plain_right s k : (forall c, In c s -> ~ In c backslashed) -> no_quote k -> plain_str (flat_map spell s ++ 39 :: k) = Some (s, k).
Proof.
  intros H Hk. rewrite spell_none by exact H. rewrite (plain_app s (39 :: k) [] k); [now rewrite app_nil_r| |now apply plain_close]. intro X. apply (H 39 X). cbn. tauto.
Qed.
Lemma plain_only s k k' : no_quote k -> plain_str (flat_map spell s ++ 39 :: k) = Some (s, k') -> forall c, In c s -> ~ In c backslashed.
Proof.
  intros Hk H. destruct (first_quote s) as [N|[a [b [-> N]]]].
  - rewrite (plain_app _ _ [] k) in H; [|now apply spell_no_quote|now apply plain_close]. rewrite app_nil_r in H. injection H as E _. apply (proj2 (spell_length s)). now rewrite E.
  - exfalso. rewrite flat_map_app in H. cbn [flat_map] in H. change (spell 39) with [92; 39] in H. cbn [app] in H. rewrite <- app_assoc in H.
    change (?x ++ (92 :: ?y) ++ ?z) with (x ++ [92] ++ (y ++ z)) in H. rewrite app_assoc in H. apply plain_tail in H as [w [E _]].
    + apply (f_equal (fun l => nth_error l (List.length a))) in E. rewrite nth_error_app2, Nat.sub_diag in E by lia. cbn [nth_error] in E. symmetry in E.
      rewrite nth_error_app1 in E by (rewrite app_length; cbn [List.length]; pose proof (proj1 (spell_length a)); lia). apply nth_error_In in E. apply in_app_or in E as [E|[E|[]]]; [exact (spell_no_quote a N E)|discriminate].
    + intro X. apply in_app_or in X as [X|[X|[]]]; [exact (spell_no_quote a N X)|discriminate].
Qed.
Definition follows (k : list Z) : Prop := match k with c :: _ => c = 44 \/ c = 41 | [] => False end.
Lemma follows_quote k : follows k -> no_quote k.
Proof. destruct k as [|c k]; [intros []|]. cbn. lia. Qed.
Lemma hex_no_quote h b : unhex h = Some b -> ~ In 39 h.
Proof. intros H X. apply hex_chars in H. rewrite Forall_forall in H. exact (H 39 X eq_refl). Qed.
Lemma quoted_app s k : quoted s ++ k = 39 :: flat_map spell s ++ 39 :: k.
Proof. unfold quoted. change (txt "'") with [39]. rewrite <- !app_assoc. reflexivity. Qed.
Lemma plain_value_quote x : plain_value (39 :: x) = match plain_str x with Some (s, k) => Some (SStr s, k) | None => None end.
Proof. reflexivity. Qed.
Lemma plain_value_right v t k : written v t -> follows k -> needs_none v -> plain_value (t ++ k) = Some (v, k).
Proof.
  intros H Hk Hn. destruct H as [| |s|n Hn'|b h Hh].
  - reflexivity.
  - reflexivity.
  - rewrite quoted_app, plain_value_quote.
    now rewrite (plain_right s k Hn (follows_quote k Hk)).
  - destruct Hn' as [->| ->]; reflexivity.
  - rewrite <- !app_assoc. unfold plain_value. change (strip (txt "b'") (txt "unhex('" ++ h ++ txt "')" ++ k)) with (@None (list Z)). cbv iota.
    change (txt "unhex('") with (txt "unhex(" ++ [39]). rewrite <- app_assoc, strip_app. unfold plain_text. change (strip (txt "NULL") ([39] ++ ?x)) with (@None (list Z)). cbv iota. change (strip (txt "'") ([39] ++ ?x)) with (Some x). cbv iota.
    change (txt "')" ++ k) with (39 :: 41 :: k). rewrite (plain_app h (39 :: 41 :: k) [] (41 :: k)); [|exact (hex_no_quote h b Hh)|apply plain_close; cbn; lia]. now rewrite app_nil_r, Hh.
Qed.
Lemma plain_value_only v t k k' : written v t -> follows k -> plain_value (t ++ k) = Some (v, k') -> needs_none v.
Proof.
  intros H Hk. destruct H as [| |s|n Hn'|b h Hh]; try (intros; exact I).
  rewrite quoted_app, plain_value_quote.
  destruct (plain_str _) as [[s' k2]|] eqn:E; [|discriminate]. intro X. injection X as -> ->. exact (plain_only s k k' (follows_quote k Hk) E).
Qed.
Lemma written_nonempty v t : written v t -> (1 <= List.length t)%nat.
Proof. intros []; cbn; try rewrite app_length; cbn; lia. Qed.
Lemma plain_values_iff vs ts : Forall2 written vs ts -> vs <> [] -> forall fuel k, (List.length (listed ts) <= fuel)%nat ->
  (Forall needs_none vs -> plain_values fuel (listed ts ++ 41 :: k) = Some (vs, k)) /\ (forall k', plain_values fuel (listed ts ++ 41 :: k) = Some (vs, k') -> Forall needs_none vs).
Proof.
  induction 1 as [|v t vs ts H HF IH]; intros Hne fuel k Hf; [contradiction|]. pose proof (written_nonempty v t H) as L.
  assert (Lf : (1 <= fuel)%nat) by (destruct ts; cbn [listed] in Hf; rewrite ?app_length in Hf; lia). destruct fuel as [|f]; [lia|]. cbn [plain_values].
  destruct HF as [|v2 t2 vs ts H2 HF].
  - cbn [listed]. split.
    + intro N. inversion N; subst. rewrite (plain_value_right v t (41 :: k) H ltac:(cbn; lia)) by assumption. reflexivity.
    + intros k' E. destruct (plain_value (t ++ 41 :: k)) as [[v' r]|] eqn:EV; [|discriminate]. destruct (strip (txt ",") r) as [r'|].
      * destruct (plain_values f r') as [[vs' k2]|] eqn:E2; [|discriminate]. injection E as -> -> ->. destruct f; [discriminate E2|]. cbn [plain_values] in E2. destruct (plain_value r') as [[? r2]|]; [|discriminate]. destruct (strip (txt ",") r2); [destruct (plain_values f _) as [[? ?]|]; discriminate|]. destruct (strip (txt ")") r2); discriminate.
      * destruct (strip (txt ")") r) as [k2|]; [|discriminate]. injection E as -> _. constructor; [|constructor]. exact (plain_value_only v t (41 :: k) r H ltac:(cbn; lia) EV).
  - change (listed (t :: t2 :: ts)) with (t ++ txt "," ++ listed (t2 :: ts)) in *. rewrite <- !app_assoc. rewrite !app_length in Hf. set (l := listed (t2 :: ts)) in *.
    destruct (IH ltac:(discriminate) f k ltac:(cbn [List.length txt] in Hf; lia)) as [I1 I2]. assert (Hk : follows (txt "," ++ l ++ 41 :: k)) by (cbn; now left). split.
    + intro N. inversion N as [|? ? N1 N2]; subst. rewrite (plain_value_right v t _ H Hk N1). change (strip (txt ",") (txt "," ++ ?x)) with (Some x). cbv iota. now rewrite (I1 N2).
    + intros k' E. destruct (plain_value (t ++ txt "," ++ l ++ 41 :: k)) as [[v' r]|] eqn:EV; [|discriminate]. destruct (strip (txt ",") r) as [r'|] eqn:ES.
      * destruct (plain_values f r') as [[vs' k2]|] eqn:E2; [|discriminate]. injection E as -> -> ->. pose proof (plain_value_only v t _ r H Hk EV) as Nv. constructor; [exact Nv|].
        rewrite (plain_value_right v t _ H Hk Nv) in EV. injection EV as <-. change (strip (txt ",") (txt "," ++ l ++ 41 :: k)) with (Some (l ++ 41 :: k)) in ES. injection ES as <-. exact (I2 _ E2).
      * destruct (strip (txt ")") r) as [k2|]; discriminate.
Qed.
Lemma heading_read db tb x : ~ In 96 db -> ~ In 96 tb ->
  plain_replace (heading db tb ++ x) = match plain_values (List.length x) x with None => None | Some (vs, r) => match strip (txt ";") r with Some k => Some (db, tb, vs, k) | None => None end end.
Proof.
  intros Hd Ht. unfold heading, plain_replace. change (txt "replace into `") with (txt "replace into " ++ [96]). rewrite <- !app_assoc, strip_app. change (txt "`.`") with [96; 46; 96]. change (txt "` values (") with (96 :: txt " values ("). cbn [app].
  rewrite read_table_plain by (try assumption; cbn; lia). now rewrite (strip_app (txt " values (")).
Qed.
(** A line is read as its row exactly if no text of the row has a character
    that the tool writes with a backslash. *)
Theorem C133_mode_partial : forall fuel rt files op sys tfile d sys_pages t db tb ss pages rows,
  tool_input rt (is_deleted op) d sys_pages t db tb ss pages rows -> front_key d (td_id t) ->
  files sys = Some (map IoBytes sys_pages) -> files tfile = Some (map IoBytes pages) -> (Z.to_nat 16384 < fuel)%nat ->
  exists lines, FromDataFile fuel rt files op sys tfile db tb = (lines, Ok tt)
    /\ Forall2 (fun r line => let vs := values (columns_of d (td_id t)) r in
         ((exists k, plain_replace line = Some (db, tb, vs, k)) <-> Forall needs_none vs) /\ (Forall needs_none vs -> plain_replace line = Some (db, tb, vs, []))) rows lines.
Proof.
  intros fuel rt files op sys tfile d sys_pages t db tb ss pages rows HI Hk F1 F2 Hfuel.
  destruct (C118_written fuel rt files op sys tfile d sys_pages t db tb ss pages rows HI Hk F1 F2 Hfuel) as [lines [E H]]. exists lines. split; [exact E|].
  destruct (C82_statements_partial fuel rt files op sys tfile d sys_pages t db tb ss pages rows HI Hk F1 F2 Hfuel) as [lines2 [E2 H2]]. rewrite E in E2. injection E2 as <-.
  destruct HI as [_ [_ [_ [_ [_ [_ [Hd [Ht _]]]]]]]]. clear - H H2 Hd Ht. induction H as [|r line rows lines [ts [Hw ->]] _ IH]; [constructor|]. inversion H2 as [|? ? ? ? HR H2']; subst. constructor; [|now apply IH].
  set (vs := values (columns_of d (td_id t)) r) in *. cbv zeta.
  assert (Hne : vs <> []).
  { intro X. rewrite X in HR, Hw. inversion Hw; subst. unfold statement, heading in HR. unfold read_replace in HR. change (txt "replace into `") with (txt "replace into " ++ [96]) in HR. rewrite <- !app_assoc, strip_app in HR. change (txt "`.`") with [96; 46; 96] in HR. change (txt "` values (") with (96 :: txt " values (") in HR. cbn [app] in HR.
    rewrite read_table_plain in HR by (try assumption; cbn; lia). rewrite (strip_app (txt " values (")) in HR. discriminate HR. }
  unfold statement. rewrite heading_read by assumption. change (txt ");") with (41 :: txt ";").
  destruct (plain_values_iff vs ts Hw Hne (List.length (listed ts ++ 41 :: txt ";")) (txt ";")) as [I1 I2]; [rewrite app_length; lia|].
  assert (R : Forall needs_none vs -> match plain_values (List.length (listed ts ++ 41 :: txt ";")) (listed ts ++ 41 :: txt ";") with None => None | Some (vs0, r0) => match strip (txt ";") r0 with Some k => Some (db, tb, vs0, k) | None => None end end = Some (db, tb, vs, [])) by (intro N; now rewrite (I1 N)).
  split; [|exact R]. split; [|intro N; exists []; now apply R]. intros [k X]. destruct (plain_values _ _) as [[vs' r']|] eqn:EV; [|discriminate X]. destruct (strip (txt ";") r'); [|discriminate X]. injection X as -> _. exact (I2 _ eq_refl).
Qed.
Print Assumptions C133_mode_partial.
Lemma plain_values_last vs ts t v' r k : Forall2 written vs ts -> Forall needs_none vs -> plain_value (t ++ txt ");") = Some (v', r) -> strip (txt ",") r = None -> strip (txt ")") r = Some k ->
  forall fuel, (List.length vs < fuel)%nat -> plain_values fuel (listed (ts ++ [t]) ++ txt ");") = Some (vs ++ [v'], k).
Proof.
  intros H HN Hv H1 H2. revert HN. induction H as [|v x vs ts Hw HF IH]; intros HN fuel Hf; (destruct fuel as [|f]; [lia|]); cbn [plain_values].
  - cbn [app listed]. now rewrite Hv, H1, H2.
  - inversion HN as [|? ? N1 N2]; subst. assert (E : listed ((x :: ts) ++ [t]) = x ++ txt "," ++ listed (ts ++ [t])) by (destruct ts; reflexivity). rewrite E, <- !app_assoc.
    rewrite (plain_value_right v x _ Hw) by (try exact N1; cbn; now left). change (strip (txt ",") (txt "," ++ ?y)) with (Some y). cbv iota. cbn [List.length] in Hf. rewrite IH by (try assumption; lia). reflexivity.
Qed.
(** What follows the quotation mark, parenthesis and semicolon in the last
    value of a row is a statement of its own in that mode. *)
Theorem C133_breakout_refuted : forall fuel rt files op sys tfile d sys_pages t db tb ss pages rows,
  tool_input rt (is_deleted op) d sys_pages t db tb ss pages rows -> front_key d (td_id t) ->
  files sys = Some (map IoBytes sys_pages) -> files tfile = Some (map IoBytes pages) -> (Z.to_nat 16384 < fuel)%nat ->
  exists lines, FromDataFile fuel rt files op sys tfile db tb = (lines, Ok tt)
    /\ Forall2 (fun r line => forall others a x, values (columns_of d (td_id t)) r = others ++ [SStr (a ++ txt "'); " ++ x)] ->
         Forall needs_none others -> needs_none (SStr a) ->
         plain_replace line = Some (db, tb, others ++ [SStr (a ++ [92])], txt " " ++ flat_map spell x ++ txt "');")) rows lines.
Proof.
  intros fuel rt files op sys tfile d sys_pages t db tb ss pages rows HI Hk F1 F2 Hfuel.
  destruct (C118_written fuel rt files op sys tfile d sys_pages t db tb ss pages rows HI Hk F1 F2 Hfuel) as [lines [E H]]. exists lines. split; [exact E|].
  destruct HI as [_ [_ [_ [_ [_ [_ [Hd [Ht _]]]]]]]]. clear - H Hd Ht. induction H as [|r line rows lines [ts [Hw ->]] _ IH]; [constructor|]. constructor; [|exact IH].
  intros others a x E No Na. rewrite E in Hw. apply Forall2_app_inv_l in Hw as [t1 [t2 [W1 [W2 ->]]]]. inversion W2 as [|? tl ? ? W3 W4]; subst. inversion W4; subst. clear W2 W4.
  unfold statement. rewrite heading_read by assumption. inversion W3 as [| |s| |]; subst. clear W3.
  assert (Hv : plain_value (quoted (a ++ txt "'); " ++ x) ++ txt ");") = Some (SStr (a ++ [92]), txt "); " ++ flat_map spell x ++ txt "');")).
  { rewrite quoted_app, plain_value_quote. rewrite !flat_map_app, (spell_none a Na). change (flat_map spell (txt "'); ")) with ([92] ++ [39] ++ txt "); "). rewrite <- !app_assoc. rewrite (app_assoc a [92]).
    rewrite (plain_app (a ++ [92]) ([39] ++ txt "); " ++ flat_map spell x ++ 39 :: txt ");") [] (txt "); " ++ flat_map spell x ++ txt "');")).
    - now rewrite app_nil_r.
    - intro X. apply in_app_iff in X as [X|[X|[]]]; [|discriminate]. apply (Na 39 X). cbn. tauto.
    - apply plain_close. vm_compute. discriminate. }
  rewrite (plain_values_last others t1 _ _ _ (txt "; " ++ flat_map spell x ++ txt "');") W1 No Hv eq_refl eq_refl).
  - reflexivity.
  - assert (L : List.length others = List.length t1) by (clear - W1; induction W1; cbn [List.length]; congruence). rewrite L. clear. rewrite app_length. match goal with |- context [quoted ?z] => generalize (quoted z); intro q end. induction t1 as [|y t1 I]; [cbn; lia|]. assert (E : listed ((y :: t1) ++ [q]) = y ++ txt "," ++ listed (t1 ++ [q])) by (destruct t1; reflexivity).
    rewrite E, !app_length. cbn [List.length] in *. change (List.length (txt ",")) with 1%nat. change (List.length (txt ");")) with 2%nat in *. lia.
Qed.
Print Assumptions C133_breakout_refuted.
(** x(v VARCHAR(60) primary key, w VARCHAR(60)): one row that breaks out and one that needs no backslash *)
Definition row_q : row := fun n => if list_eq_dec Z.eq_dec n (txt "v") then SStr (txt "a") else SStr (txt "b'); drop table x; -- ").
Definition row_p : row := fun n => SStr (txt "c").
Definition stored_q : list stored := [FBytes (txt "a"); FBytes (be 6 300); FBytes (be 7 5); FBytes (txt "b'); drop table x; -- ")].
Definition stored_p : list stored := [FBytes (txt "c"); FBytes (be 6 300); FBytes (be 7 5); FBytes (txt "c")].
Definition page_q : list Z := built true 3 17855 52 (map (crec (map slot_layout (key_slots [x_v] [x_w]))) [stored_q; stored_p]).
Lemma page_q_holds rt : file_holds rt false (key_slots [x_v] [x_w]) [page_q] (map (values (users (key_slots [x_v] [x_w]))) [row_q; row_p]).
Proof.
  assert (Hf : Forall fine (map (crec (map slot_layout (key_slots [x_v] [x_w]))) [stored_q; stored_p])) by (apply fine_check; vm_compute; reflexivity).
  assert (Hl : zlen (blocks true 125 (map (crec (map slot_layout (key_slots [x_v] [x_w]))) [stored_q; stored_p])) <= 16000) by (vm_compute; discriminate).
  destruct (built_alone 3 52 _ Hf Hl) as [Hi He]; try lia. split; [exact Hi|]. fold page_q in He. rewrite He.
  exists [map (values (users (key_slots [x_v] [x_w]))) [row_q; row_p]]. split; [|apply app_nil_r]. constructor; [|constructor].
  apply page_built; try assumption; try lia. constructor; [|constructor; [|constructor]]; (split; [repeat (constructor; [vm_compute; reflexivity|]); constructor|]).
  - change (row_encodes rt [User x_v; Own 6; Own 7; User x_w] [SStr (txt "a"); SStr (txt "b'); drop table x; -- ")] stored_q). unfold stored_q. constructor; [|plain_text|].
    + apply enc_varchar; reflexivity || (intros _; reflexivity).
    + constructor; [reflexivity|]. constructor; [reflexivity|]. constructor; [|plain_text|constructor]. apply enc_varchar; reflexivity || (intros _; reflexivity).
  - change (row_encodes rt [User x_v; Own 6; Own 7; User x_w] [SStr (txt "c"); SStr (txt "c")] stored_p). unfold stored_p. constructor; [|plain_text|].
    + apply enc_varchar; reflexivity || (intros _; reflexivity).
    + constructor; [reflexivity|]. constructor; [reflexivity|]. constructor; [|plain_text|constructor]. apply enc_varchar; reflexivity || (intros _; reflexivity).
Qed.
Example C133_case : forall rt,
  tool_input rt (is_deleted (txt "PrintData")) dict_x pages_x (mkTableDef (txt "test/x") 33 5) (txt "test") (txt "x") (key_slots [x_v] [x_w]) [page_q] [row_q; row_p]
  /\ front_key dict_x 33
  /\ values (columns_of dict_x 33) row_q = [SStr (txt "a")] ++ [SStr (txt "b" ++ txt "'); " ++ txt "drop table x; -- ")] /\ needs_none (SStr (txt "b"))
  /\ Forall needs_none (values (columns_of dict_x 33) row_p)
  /\ plain_replace (txt "replace into `test`.`x` values ('a','b\'); drop table x; -- ');") = Some (txt "test", txt "x", [SStr (txt "a"); SStr (txt "b\")], txt " drop table x; -- ');").
Proof.
  intro rt. destruct (chars_input rt) as [A B]. split; [|split; [exact B|]].
  - destruct A as [A1 [A2 [A3 [A4 [A5 [A6 [A7 [A8 [A9 [A10 [A11 _]]]]]]]]]]]. repeat (split; [assumption|]). exact (page_q_holds rt).
  - split; [reflexivity|]. split; [intros c [<-|[]]; vm_compute; lia|]. split; [|reflexivity]. repeat (constructor; [intros c [<-|[]]; vm_compute; lia|]). constructor.
Qed.
