(** C117, C118: the text of the statements, and the character sets of columns. *)
From Coq Require Import String ZifyBool.
From Verif Require Import GoBase Utils Ibdata Cmd SpecInno SpecText SpecSql SpecRecord SpecRow SpecPage SpecDict SpecTool SpecCmd SpecChars
  PBase PWire PValue PText PRec PPage PSql PFile PDict PBuild PTool PChars PropDict PropTool PropPrefix.
Local Open Scope string_scope.
Local Open Scope list_scope.
Local Open Scope Z_scope.

(** C118: byte for byte what is printed for the rows of a data file. *)
Theorem C118_written : forall fuel rt files op sys tfile d sys_pages t db tb ss pages rows,
  tool_input rt (is_deleted op) d sys_pages t db tb ss pages rows -> front_key d (td_id t) ->
  files sys = Some (map IoBytes sys_pages) -> files tfile = Some (map IoBytes pages) -> (Z.to_nat 16384 < fuel)%nat ->
  exists lines, FromDataFile fuel rt files op sys tfile db tb = (lines, Ok tt)
    /\ Forall2 (fun r line => exists ts, Forall2 written (values (columns_of d (td_id t)) r) ts /\ line = statement db tb ts) rows lines.
Proof.
  intros fuel rt files op sys tfile d sys_pages t db tb ss pages rows HI Hk F1 F2 Hfuel.
  destruct (tool_said fuel rt files op sys tfile d sys_pages t db tb ss pages rows HI Hk F1 F2 Hfuel) as [lines [E H]]. exists lines. split; [exact E|].
  revert H. apply forall2_impl. intros r line. apply said_written.
Qed.
Print Assumptions C118_written.

(** C117: a text is read as it was exactly if the client's character set
    writes it as the column's does. *)
Theorem C117_exact_refuted : forall fuel rt files op sys tfile d sys_pages t db tb ss pages rows,
  tool_input rt (is_deleted op) d sys_pages t db tb ss pages rows -> front_key d (td_id t) ->
  files sys = Some (map IoBytes sys_pages) -> files tfile = Some (map IoBytes pages) -> (Z.to_nat 16384 < fuel)%nat ->
  exists lines, FromDataFile fuel rt files op sys tfile db tb = (lines, Ok tt)
    /\ Forall2 (fun r line => exists vals, read_replace line = Some (db, tb, vals) /\ List.length vals = List.length (columns_of d (td_id t))
         /\ forall i c v (set : charset) text (client : charset), nth_error (columns_of d (td_id t)) i = Some c -> nth_error vals i = Some v -> r (cd_name c) = SStr (set text) ->
            (reads_as client v text <-> client text = set text)) rows lines.
Proof.
  intros fuel rt files op sys tfile d sys_pages t db tb ss pages rows HI Hk F1 F2 Hfuel.
  destruct (C82_statements_partial fuel rt files op sys tfile d sys_pages t db tb ss pages rows HI Hk F1 F2 Hfuel) as [lines [E H]]. exists lines. split; [exact E|].
  revert H. apply forall2_impl. intros r line Hr. eexists. split; [exact Hr|]. split; [apply map_length|].
  intros i c v set text client Hi Hv Ht. unfold values in Hv. rewrite (map_nth_error _ _ _ Hi) in Hv. injection Hv as <-. unfold reads_as. rewrite Ht.
  split; [intro X; injection X as X; congruence|intros ->; reflexivity].
Qed.
Print Assumptions C117_exact_refuted.
(** Full statement: for columns of all character sets and one client.  Proved:
    for columns that have the client's. *)
Theorem C117_own_partial : forall fuel rt files op sys tfile d sys_pages t db tb ss pages rows (client : charset) (text : row -> column_def -> list Z),
  tool_input rt (is_deleted op) d sys_pages t db tb ss pages rows -> front_key d (td_id t) ->
  files sys = Some (map IoBytes sys_pages) -> files tfile = Some (map IoBytes pages) -> (Z.to_nat 16384 < fuel)%nat ->
  exists lines, FromDataFile fuel rt files op sys tfile db tb = (lines, Ok tt)
    /\ Forall2 (fun r line => exists vals, read_replace line = Some (db, tb, vals) /\ List.length vals = List.length (columns_of d (td_id t))
         /\ forall i c v, nth_error (columns_of d (td_id t)) i = Some c -> nth_error vals i = Some v -> r (cd_name c) = SStr (client (text r c)) ->
            reads_as client v (text r c)) rows lines.
Proof.
  intros fuel rt files op sys tfile d sys_pages t db tb ss pages rows client text HI Hk F1 F2 Hfuel.
  destruct (C117_exact_refuted fuel rt files op sys tfile d sys_pages t db tb ss pages rows HI Hk F1 F2 Hfuel) as [lines [E H]]. exists lines. split; [exact E|].
  revert H. apply forall2_impl. intros r line [vals [H1 [H2 H3]]]. exists vals. split; [exact H1|]. split; [exact H2|]. intros i c v Hi Hv Ht. now apply (H3 i c v client (text r c) client Hi Hv Ht).
Qed.
Print Assumptions C117_own_partial.
(** False for a client that takes the statements for UTF-8 and columns of any
    set of one byte per character: only ASCII texts are right. *)
Theorem C117_one_byte_refuted : forall fuel rt files op sys tfile d sys_pages t db tb ss pages rows,
  tool_input rt (is_deleted op) d sys_pages t db tb ss pages rows -> front_key d (td_id t) ->
  files sys = Some (map IoBytes sys_pages) -> files tfile = Some (map IoBytes pages) -> (Z.to_nat 16384 < fuel)%nat ->
  exists lines, FromDataFile fuel rt files op sys tfile db tb = (lines, Ok tt)
    /\ Forall2 (fun r line => exists vals, read_replace line = Some (db, tb, vals) /\ List.length vals = List.length (columns_of d (td_id t))
         /\ forall i c v table text, nth_error (columns_of d (td_id t)) i = Some c -> nth_error vals i = Some v ->
            extends_ascii table -> Forall (fun ch => 0 <= ch) text -> r (cd_name c) = SStr (one_byte table text) ->
            (reads_as utf8_set v text <-> Forall (fun ch => ch < 128) text)) rows lines.
Proof.
  intros fuel rt files op sys tfile d sys_pages t db tb ss pages rows HI Hk F1 F2 Hfuel.
  destruct (C117_exact_refuted fuel rt files op sys tfile d sys_pages t db tb ss pages rows HI Hk F1 F2 Hfuel) as [lines [E H]]. exists lines. split; [exact E|].
  revert H. apply forall2_impl. intros r line [vals [H1 [H2 H3]]]. exists vals. split; [exact H1|]. split; [exact H2|].
  intros i c v table text Hi Hv He Hp Ht. rewrite (H3 i c v (one_byte table) text utf8_set Hi Hv Ht). rewrite <- (one_byte_utf8 table text He Hp). unfold utf8_set, one_byte. split; congruence.
Qed.
Print Assumptions C117_one_byte_refuted.
(** Nor are ASCII texts right in columns of two bytes per character. *)
Theorem C117_ucs2_refuted : forall fuel rt files op sys tfile d sys_pages t db tb ss pages rows,
  tool_input rt (is_deleted op) d sys_pages t db tb ss pages rows -> front_key d (td_id t) ->
  files sys = Some (map IoBytes sys_pages) -> files tfile = Some (map IoBytes pages) -> (Z.to_nat 16384 < fuel)%nat ->
  exists lines, FromDataFile fuel rt files op sys tfile db tb = (lines, Ok tt)
    /\ Forall2 (fun r line => exists vals, read_replace line = Some (db, tb, vals) /\ List.length vals = List.length (columns_of d (td_id t))
         /\ forall i c v text, nth_error (columns_of d (td_id t)) i = Some c -> nth_error vals i = Some v ->
            Forall (fun ch => 0 <= ch < 128) text -> text <> [] -> r (cd_name c) = SStr (ucs2_set text) -> ~ reads_as utf8_set v text) rows lines.
Proof.
  intros fuel rt files op sys tfile d sys_pages t db tb ss pages rows HI Hk F1 F2 Hfuel.
  destruct (C117_exact_refuted fuel rt files op sys tfile d sys_pages t db tb ss pages rows HI Hk F1 F2 Hfuel) as [lines [E H]]. exists lines. split; [exact E|].
  revert H. apply forall2_impl. intros r line [vals [H1 [H2 H3]]]. exists vals. split; [exact H1|]. split; [exact H2|].
  intros i c v text Hi Hv Ha Hne Ht. rewrite (H3 i c v ucs2_set text utf8_set Hi Hv Ht). intro X. unfold utf8_set, ucs2_set in X. rewrite utf8_ascii in X by exact Ha.
  apply (f_equal (@List.length Z)) in X. rewrite ucs2_size in X. destruct text; [contradiction|]. cbn [List.length] in X. lia.
Qed.
Print Assumptions C117_ucs2_refuted.
(** ... and there is no right client for two columns whose sets give two texts
    the same bytes. *)
Theorem C117_mixed_refuted : forall fuel rt files op sys tfile d sys_pages t db tb ss pages rows,
  tool_input rt (is_deleted op) d sys_pages t db tb ss pages rows -> front_key d (td_id t) ->
  files sys = Some (map IoBytes sys_pages) -> files tfile = Some (map IoBytes pages) -> (Z.to_nat 16384 < fuel)%nat ->
  exists lines, FromDataFile fuel rt files op sys tfile db tb = (lines, Ok tt)
    /\ Forall2 (fun r line => exists vals, read_replace line = Some (db, tb, vals) /\ List.length vals = List.length (columns_of d (td_id t))
         /\ forall i j c1 c2 v1 v2 (set1 set2 client : charset) text1 text2,
            nth_error (columns_of d (td_id t)) i = Some c1 -> nth_error (columns_of d (td_id t)) j = Some c2 -> nth_error vals i = Some v1 -> nth_error vals j = Some v2 ->
            r (cd_name c1) = SStr (set1 text1) -> r (cd_name c2) = SStr (set2 text2) -> set1 text1 = set2 text2 -> text1 <> text2 ->
            (forall x y, client x = client y -> x = y) -> ~ (reads_as client v1 text1 /\ reads_as client v2 text2)) rows lines.
Proof.
  intros fuel rt files op sys tfile d sys_pages t db tb ss pages rows HI Hk F1 F2 Hfuel.
  destruct (C117_exact_refuted fuel rt files op sys tfile d sys_pages t db tb ss pages rows HI Hk F1 F2 Hfuel) as [lines [E H]]. exists lines. split; [exact E|].
  revert H. apply forall2_impl. intros r line [vals [H1 [H2 H3]]]. exists vals. split; [exact H1|]. split; [exact H2|].
  intros i j c1 c2 v1 v2 set1 set2 client text1 text2 Hi Hj Hv1 Hv2 Ht1 Ht2 Hs Hne Hinj [A B].
  apply (H3 i c1 v1 set1 text1 client Hi Hv1 Ht1) in A. apply (H3 j c2 v2 set2 text2 client Hj Hv2 Ht2) in B. apply Hne, Hinj. congruence.
Qed.
Print Assumptions C117_mixed_refuted.

(** Clients with a set of two-byte characters: values with characters whose
    second byte is not a backslash are read back, ... *)
Theorem C117_two_byte_partial : forall pair chars following, two_byte pair -> Forall (char_of pair) chars -> Forall (fun ch => forall a, ch <> [a; 92]) chars ->
  List.concat chars <> txt "0001-01-01T00:00:00Z" -> hd 0 following <> 39 ->
  lex_wide pair (EscapeValue (List.concat chars) ++ txt "'" ++ following) = Some (List.concat chars, following).
Proof.
  intros pair chs k HP Hc Hn Hm Hk. rewrite escape_spelled; [|apply (chars_bytes pair); assumption|exact Hm].
  change (txt "'" ++ k) with (39 :: k). rewrite wide_chars; try assumption; [|discriminate]. rewrite wide_close by assumption. cbn. now rewrite app_nil_r.
Qed.
Print Assumptions C117_two_byte_partial.
(** ... but a value that ends with such a character swallows its closing quote. *)
Theorem C117_swallowed_refuted : forall pair chars a following, two_byte pair -> Forall (char_of pair) chars -> Forall (fun ch => forall a, ch <> [a; 92]) chars -> pair a 92 = true ->
  let s := List.concat chars ++ [a; 92] in
  lex_wide pair (EscapeValue s ++ txt "'" ++ following) = match lex_wide pair following with Some (v, rest) => Some (s ++ txt "'" ++ v, rest) | None => None end
  /\ lex_wide pair (EscapeValue s ++ txt "'" ++ following) <> Some (s, following).
Proof.
  intros pair chs a k HP Hc Hn Ha s.
  assert (E : lex_wide pair (EscapeValue s ++ txt "'" ++ k) = match lex_wide pair k with Some (v, rest) => Some (s ++ txt "'" ++ v, rest) | None => None end).
  { unfold s. rewrite escape_spelled.
    - change (txt "'" ++ k) with (39 :: k). apply wide_ending; assumption.
    - apply Forall_app. split; [apply (chars_bytes pair); assumption|]. destruct (HP a 92 Ha). repeat (constructor; [unfold is_byte; lia|]). constructor.
    - apply not_magic_92. }
  split; [exact E|]. rewrite E. destruct (lex_wide pair k) as [[v rest]|]; [|discriminate]. intro X. injection X as X _. apply (f_equal (@List.length Z)) in X.
  rewrite app_length in X. cbn [txt app List.length] in X. lia.
Qed.
Print Assumptions C117_swallowed_refuted.
(** For such a client the text of the column behind it is not a value at all:
    the tool prints it outside of all quotes. *)
Theorem C117_breakout_refuted : forall fuel rt files op sys tfile d sys_pages t db tb ss pages rows c1 c2 more pair a,
  tool_input rt (is_deleted op) d sys_pages t db tb ss pages rows -> front_key d (td_id t) -> columns_of d (td_id t) = c1 :: c2 :: more ->
  files sys = Some (map IoBytes sys_pages) -> files tfile = Some (map IoBytes pages) -> (Z.to_nat 16384 < fuel)%nat -> two_byte pair -> pair a 92 = true ->
  exists lines, FromDataFile fuel rt files op sys tfile db tb = (lines, Ok tt)
    /\ Forall2 (fun r line => forall chars s2, Forall (char_of pair) chars -> Forall (fun ch => forall b, ch <> [b; 92]) chars ->
         r (cd_name c1) = SStr (List.concat chars ++ [a; 92]) -> r (cd_name c2) = SStr s2 -> s2 <> [] -> Forall (fun c => ~ In c [0; 10; 13; 26; 34; 39; 92]) s2 ->
         exists text after, line = heading db tb ++ txt "'" ++ text /\ lex_wide pair text = Some (List.concat chars ++ [a; 92] ++ txt "',", s2 ++ after)) rows lines.
Proof.
  intros fuel rt files op sys tfile d sys_pages t db tb ss pages rows c1 c2 more pair a HI Hk HE F1 F2 Hfuel HP Ha.
  destruct (C118_written fuel rt files op sys tfile d sys_pages t db tb ss pages rows HI Hk F1 F2 Hfuel) as [lines [E H]]. exists lines. split; [exact E|].
  revert H. apply forall2_impl. intros r line [ts [HW ->]] chs s2 Hc Hn E1 E2 Hne Hp. rewrite HE in HW. cbn [values map] in HW. rewrite E1, E2 in HW.
  inversion HW as [|? t1 ? ts1 W1 HW1]; subst. inversion HW1 as [|? t2 ? ts2 W2 HW2]; subst. inversion W1; subst. inversion W2; subst.
  assert (EL : exists rest, listed (quoted (List.concat chs ++ [a; 92]) :: quoted s2 :: ts2) = quoted (List.concat chs ++ [a; 92]) ++ txt "," ++ quoted s2 ++ rest).
  { destruct ts2 as [|x r2]; [exists []; cbn [listed]; now rewrite app_nil_r|]. exists (txt "," ++ listed (x :: r2)). reflexivity. }
  destruct EL as [rest EL]. unfold statement. rewrite EL.
  exists (flat_map spell (List.concat chs ++ [a; 92]) ++ 39 :: 44 :: 39 :: flat_map spell s2 ++ txt "'" ++ rest ++ txt ");"), (txt "'" ++ rest ++ txt ");").
  split.
  - unfold quoted. rewrite <- !app_assoc. cbn [txt app]. reflexivity.
  - rewrite wide_ending by assumption. rewrite spell_plain by exact Hp.
    assert (EC : lex_wide pair (44 :: 39 :: s2 ++ txt "'" ++ rest ++ txt ");") = Some ([44], s2 ++ txt "'" ++ rest ++ txt ");")).
    { assert (EQ : lex_wide pair (39 :: s2 ++ txt "'" ++ rest ++ txt ");") = Some ([], s2 ++ txt "'" ++ rest ++ txt ");")).
      { apply wide_close; [exact HP|]. destruct s2 as [|c s2]; [contradiction|]. inversion Hp; subst. cbn. intro X. subst. cbn in *. tauto. }
      remember (s2 ++ txt "'" ++ rest ++ txt ");") as q. cbn [lex_wide]. rewrite (pair_low pair 44 39 HP) by lia. change (44 =? 39) with false. change (44 =? 92) with false. cbv iota.
      cbn [lex_wide] in EQ. rewrite EQ. reflexivity. }
    rewrite EC. rewrite <- !app_assoc. reflexivity.
Qed.
Print Assumptions C117_breakout_refuted.

(** x(v VARCHAR(60) primary key, w VARCHAR(60)): a row whose v is a GBK
    character with a backslash as second byte, and one with the same bytes in
    two columns, which are two characters in the one and one in the other. *)
Definition row_g : row := fun n => if list_eq_dec Z.eq_dec n (txt "v") then SStr [129; 92] else SStr (txt "); drop table x; -- ").
Definition row_e : row := fun n => SStr [195; 169].
Definition stored_g : list stored := [FBytes [129; 92]; FBytes (be 6 300); FBytes (be 7 5); FBytes (txt "); drop table x; -- ")].
Definition stored_e : list stored := [FBytes [195; 169]; FBytes (be 6 300); FBytes (be 7 5); FBytes [195; 169]].
Definition page_g : list Z := built true 3 17855 52 (map (crec (map slot_layout (key_slots [x_v] [x_w]))) [stored_g; stored_e]).
Lemma page_g_holds rt : file_holds rt false (key_slots [x_v] [x_w]) [page_g] (map (values (users (key_slots [x_v] [x_w]))) [row_g; row_e]).
Proof.
  assert (Hf : Forall fine (map (crec (map slot_layout (key_slots [x_v] [x_w]))) [stored_g; stored_e])) by (apply fine_check; vm_compute; reflexivity).
  assert (Hl : zlen (blocks true 125 (map (crec (map slot_layout (key_slots [x_v] [x_w]))) [stored_g; stored_e])) <= 16000) by (vm_compute; discriminate).
  destruct (built_alone 3 52 _ Hf Hl) as [Hi He]; try lia. split; [exact Hi|]. fold page_g in He. rewrite He.
  exists [map (values (users (key_slots [x_v] [x_w]))) [row_g; row_e]]. split; [|apply app_nil_r]. constructor; [|constructor].
  apply page_built; try assumption; try lia. constructor; [|constructor; [|constructor]]; (split; [repeat (constructor; [vm_compute; reflexivity|]); constructor|]).
  - change (row_encodes rt [User x_v; Own 6; Own 7; User x_w] [SStr [129; 92]; SStr (txt "); drop table x; -- ")] stored_g). unfold stored_g. constructor; [|plain_text|].
    + apply enc_varchar; reflexivity || (intros _; reflexivity).
    + constructor; [reflexivity|]. constructor; [reflexivity|]. constructor; [|plain_text|constructor]. apply enc_varchar; reflexivity || (intros _; reflexivity).
  - change (row_encodes rt [User x_v; Own 6; Own 7; User x_w] [SStr [195; 169]; SStr [195; 169]] stored_e). unfold stored_e. constructor; [|plain_text|].
    + apply enc_varchar; reflexivity || (intros _; reflexivity).
    + constructor; [reflexivity|]. constructor; [reflexivity|]. constructor; [|plain_text|constructor]. apply enc_varchar; reflexivity || (intros _; reflexivity).
Qed.
Lemma chars_input rt : tool_input rt (is_deleted (txt "PrintData")) dict_x pages_x (mkTableDef (txt "test/x") 33 5) (txt "test") (txt "x") (key_slots [x_v] [x_w]) [page_g] [row_g; row_e]
  /\ front_key dict_x 33.
Proof.
  assert (HK : has_key dict_x 33 [x_v] [x_w]).
  { exists (mkIndexDef 33 52 (txt "PRIMARY") 1 3). split; [now left|]. split; [reflexivity|]. split; [reflexivity|]. split; [|reflexivity]. intros x [<-|[]]. now left. }
  split; [|right; exists [x_v], [x_w]; split; [exact HK|]; split; [reflexivity|]; split; [discriminate|]; constructor; [now repeat split|constructor]].
  change (is_deleted (txt "PrintData")) with false.
  split; [exact pages_x_stores|]. split; [exact dict_x_consistent|]. split; [distinct|]. split; [now left|].
  split; [left; split; [reflexivity|split; cbn; lia]|]. split; [discriminate|]. split; [cbn; lia|]. split; [cbn; lia|]. split; [discriminate|].
  split; [|split; [right; exists [x_v], [x_w]; split; [exact HK|reflexivity]|exact (page_g_holds rt)]].
  change (columns_of dict_x (td_id (mkTableDef (txt "test/x") 33 5))) with [x_v; x_w]. ordinary_columns.
Qed.
Example C118_case : forall rt,
  tool_input rt (is_deleted (txt "PrintData")) dict_x pages_x (mkTableDef (txt "test/x") 33 5) (txt "test") (txt "x") (key_slots [x_v] [x_w]) [page_g] [row_g; row_e]
  /\ front_key dict_x 33
  /\ Forall2 written (values (columns_of dict_x 33) row_g) [txt "'" ++ [129; 92; 92] ++ txt "'"; txt "'); drop table x; -- '"].
Proof. intro rt. destruct (chars_input rt) as [A B]. split; [exact A|]. split; [exact B|]. constructor; [exact (w_str [129; 92])|]. constructor; [exact (w_str (txt "); drop table x; -- "))|constructor]. Qed.
(** One set of one byte per character that extends ASCII is latin1. *)
Example C117_case : forall rt,
  tool_input rt (is_deleted (txt "PrintData")) dict_x pages_x (mkTableDef (txt "test/x") 33 5) (txt "test") (txt "x") (key_slots [x_v] [x_w]) [page_g] [row_g; row_e]
  /\ front_key dict_x 33 /\ columns_of dict_x 33 = [x_v; x_w]
  /\ two_byte gbk /\ gbk 129 92 = true /\ row_g (cd_name x_v) = SStr (List.concat [] ++ [129; 92]) /\ row_g (cd_name x_w) = SStr (txt "); drop table x; -- ")
  /\ Forall (fun c => ~ In c [0; 10; 13; 26; 34; 39; 92]) (txt "); drop table x; -- ")
  /\ extends_ascii (fun c => c) /\ row_e (cd_name x_v) = SStr (one_byte (fun c => c) [195; 169]) /\ row_e (cd_name x_w) = SStr (utf8_set [233]).
Proof.
  intro rt. destruct (chars_input rt) as [A B]. split; [exact A|]. split; [exact B|]. split; [reflexivity|].
  split; [intros a b H; unfold gbk in H; lia|]. repeat (split; [reflexivity|]). split; [|split; [intros c _; reflexivity|split; reflexivity]].
  apply Forall_forall. intros c H X. vm_compute in H. cbn [In] in X. lia.
Qed.
Example C117_two_byte_case : Forall (char_of gbk) [[129; 64]; [39]; [65]] /\ lex_wide gbk (EscapeValue [129; 64; 39; 65] ++ txt "'" ++ txt ",1") = Some ([129; 64; 39; 65], txt ",1")
  /\ lex_wide gbk (EscapeValue [129; 92] ++ txt "'" ++ txt ",'x'") = Some ([129; 92; 39; 44], txt "x'").
Proof.
  split; [|split; reflexivity]. constructor; [right; exists 129, 64; split; reflexivity|]. constructor; [left; exists 39|constructor; [left; exists 65|constructor]]; (split; [reflexivity|]; split; [lia|]; intro d; reflexivity).
Qed.
