(** C125, C126: command lines and exit statuses. *)
From Coq Require Import String ZifyBool.
From Verif Require Import GoBase Utils Ibdata Redo Cmd Main SpecInno SpecText SpecSql SpecRecord SpecRow SpecPage SpecDict SpecTool SpecMain PBase PTool PropTool.
Local Open Scope string_scope.
Local Open Scope list_scope.
Local Open Scope Z_scope.

Definition plain_name (n : list Z) : bool :=
  negb (has_equal n) && negb (beq n (txt "help")) && match n with [] => false | c :: _ => negb (c =? 45) end.
Definition plain_word (w : list Z) : bool := negb (beq w []) && negb (dash w).

Lemma dashes n : (dash_dash (txt "--" ++ n) = true) /\ (dash (txt "--" ++ n) = true).
Proof. split; reflexivity. Qed.
Lemma equal_app a b : has_equal (a ++ b) = has_equal a || has_equal b.
Proof. apply existsb_app. Qed.
Lemma not_bare n : n <> [] -> beq (txt "--" ++ n) (bs "--") = false.
Proof. intro H. apply beq_neq. cbn. intro E. injection E as E. contradiction. Qed.
Lemma strip_flags is : Forall (fun w => plain_word w = true) (flat_map (fun i => match i with Word w => [w] | _ => [] end) is) -> Forall (fun o => plain_name (fst o) = true) (options is) ->
  stripFlags (arguments is) = flat_map (fun i => match i with Word w => [w] | _ => [] end) is.
Proof.
  intros Hw Ho. induction is as [|i is IH]; [reflexivity|]. unfold arguments, options in *. cbn [flat_map] in *. apply Forall_app in Hw as [W1 W2], Ho as [O1 O2]. specialize (IH W2 O2).
  destruct i as [w|n v|n v]; cbn [written app] in *.
  - inversion W1 as [|? ? W _]; subst. unfold plain_word in W. apply andb_prop in W as [Wa Wb]. cbn [stripFlags].
    assert (D : dash w = false) by (now destruct (dash w)). rewrite D.
    assert (DD : dash_dash w = false) by (destruct w as [|x [|y w]]; try reflexivity; cbn in *; destruct x as [|p|]; try reflexivity; do 6 (destruct p as [p|p|]; try reflexivity); discriminate D).
    assert (B : beq w (bs "--") = false) by (apply beq_neq; intros ->; discriminate D). rewrite B, DD, Wa. cbn [andb orb negb]. now rewrite IH.
  - inversion O1 as [|? ? O _]; subst. cbn [fst] in O. unfold plain_name in O. rewrite !andb_true_iff in O. destruct O as [[Oa Ob] Oc]. cbn [stripFlags]. rewrite not_bare by (destruct n; [discriminate Oc|discriminate]).
    destruct (dashes (n ++ txt "=" ++ v)) as [D1 D2]. rewrite D1, D2. assert (E : has_equal (txt "--" ++ n ++ txt "=" ++ v) = true) by (rewrite !equal_app; cbn; now rewrite orb_true_r). rewrite E. cbn [negb andb orb]. rewrite andb_false_r. exact IH.
  - inversion O1 as [|? ? O _]; subst. cbn [fst] in O. unfold plain_name in O. rewrite !andb_true_iff in O. destruct O as [[Oa Ob] Oc]. cbn [stripFlags]. rewrite not_bare by (destruct n; [discriminate Oc|discriminate]).
    destruct (dashes n) as [D1 D2]. rewrite D1, D2. assert (E : has_equal (txt "--" ++ n) = false) by (rewrite equal_app; cbn; now apply negb_true_iff in Oa). rewrite E. cbn [negb andb orb].
    destruct (flat_map written is) as [|x rest] eqn:Ex; [|exact IH]. cbn [stripFlags] in IH. exact IH.
Qed.
Lemma minus_first a w b : plain_word w = true -> only_options a -> without w a -> argsMinusFirstX (arguments (a ++ [Word w] ++ b)) w = arguments (a ++ b).
Proof.
  intros Hw Ho Hn. unfold arguments. rewrite !flat_map_app. cbn [flat_map written app].
  assert (N : ~ In w (flat_map written a)).
  { unfold plain_word in Hw. apply andb_prop in Hw as [_ Hd]. clear b. induction a as [|i a IH]; [intros []|]. inversion Ho as [|? ? O1 O2]; subst. inversion Hn as [|? ? N1 N2]; subst. cbn [flat_map]. rewrite in_app_iff. intros [H|H]; [|exact (IH O2 N2 H)].
    destruct i as [x|n v|n v]; [contradiction| |]; cbn [written In] in H; [destruct H as [<-|[]]; discriminate Hd|]. destruct H as [<-|[<-|[]]]; [discriminate Hd|now apply N1]. }
  induction (flat_map written a) as [|x l IH]; cbn [app argsMinusFirstX]; [now rewrite beq_refl|]. assert (E : beq w x = false) by (apply beq_neq; intros ->; apply N; now left). rewrite E. f_equal. apply IH. intro H. apply N. now right.
Qed.
Lemma dash_not c w : c <> 45 -> dash (c :: w) = false.
Proof. intro H. unfold dash. destruct c as [|p|]; try reflexivity. do 6 (destruct p as [p|p|]; try reflexivity). contradiction. Qed.
Lemma cut_name n : has_equal n = false -> cut_equal n = (n, None).
Proof. induction n as [|c n IH]; [reflexivity|]. cbn [has_equal existsb cut_equal]. intro H. apply orb_false_elim in H as [-> H]. now rewrite (IH H). Qed.
Lemma cut_both n v : has_equal n = false -> cut_equal (n ++ txt "=" ++ v) = (n, Some v).
Proof. induction n as [|c n IH]; [reflexivity|]. cbn [has_equal existsb cut_equal app]. intro H. apply orb_false_elim in H as [-> H]. now rewrite (IH H). Qed.
Lemma parse_options names is : options_and_words is -> Forall (fun o => In (fst o) names) (options is) -> Forall (fun n => plain_name n = true) names ->
  parseArgs names (arguments is) = Some (map (fun o => SetText (fst o) (snd o)) (options is)).
Proof.
  intros Ho Hin Hp. induction is as [|i is IH]; [reflexivity|]. inversion Ho as [|? ? O1 O2]; subst. unfold arguments, options in *. cbn [flat_map] in *. apply Forall_app in Hin as [I1 I2]. specialize (IH O2 I2).
  destruct i as [w|n v|n v]; cbn [written app] in *; [destruct O1 as [c [w' [-> Hc]]]; cbn [parseArgs]; assert (D : dash (c :: w') = false) by (now apply dash_not); rewrite D; exact IH| |]; inversion I1 as [|? ? I _]; subst; cbn [fst] in I.
  all: assert (P : plain_name n = true) by (rewrite Forall_forall in Hp; now apply Hp); unfold plain_name in P; rewrite !andb_true_iff in P; destruct P as [[Pa Pb] Pc]; apply negb_true_iff in Pa, Pb.
  all: assert (X : existsb (beq n) names = true) by (apply existsb_exists; exists n; split; [exact I|apply beq_refl]).
  all: assert (Y : match n with [] => true | c :: _ => c =? 45 end = false) by (destruct n as [|c n]; [discriminate Pc|now apply negb_true_iff in Pc]).
  - cbn [parseArgs]. destruct (dashes (n ++ txt "=" ++ v)) as [D1 D2]. rewrite D1, D2. cbn [negb orb].
    assert (L : len (txt "--" ++ n ++ txt "=" ++ v) >= 3) by (rewrite !len_app; change (len (txt "--")) with 2; change (len (txt "=")) with 1; unfold len; lia).
    destruct (Z.eqb_spec (len (txt "--" ++ n ++ txt "=" ++ v)) 1) as [E|_]; [lia|]. destruct (Z.eqb_spec (len (txt "--" ++ n ++ txt "=" ++ v)) 2) as [E|_]; [lia|].
    change (skipn 2 (txt "--" ++ n ++ txt "=" ++ v)) with (n ++ txt "=" ++ v). rewrite (cut_both n v Pa), Y. change (bs "help") with (txt "help"). rewrite Pb, X, IH. reflexivity.
  - cbn [parseArgs]. destruct (dashes n) as [D1 D2]. rewrite D1, D2. cbn [negb orb].
    assert (L : len (txt "--" ++ n) >= 3) by (rewrite len_app; change (len (txt "--")) with 2; destruct n; [discriminate Pc|rewrite len_cons; unfold len; lia]).
    destruct (Z.eqb_spec (len (txt "--" ++ n)) 1) as [E|_]; [lia|]. destruct (Z.eqb_spec (len (txt "--" ++ n)) 2) as [E|_]; [lia|].
    change (skipn 2 (txt "--" ++ n)) with n. rewrite (cut_name n Pa), Y. change (bs "help") with (txt "help"). rewrite Pb, X, IH. reflexivity.
Qed.
Notation texts l := (map (fun o => SetText (fst o) (snd o)) l).
Lemma no_help l : forall b, help_asked (texts l) b = b.
Proof. induction l as [|o l IH]; intro b; [reflexivity|]. cbn [map help_asked]. apply IH. Qed.
Lemma value_none n l : (forall x, ~ In (n, x) l) -> forall d, value_of n (texts l) d = d.
Proof.
  induction l as [|[m y] l IH]; intros H d; [reflexivity|]. cbn [map value_of fst snd]. assert (E : beq n m = false) by (apply beq_neq; intros ->; apply (H y); now left). rewrite E. apply IH. intros x Hx. apply (H x). now right.
Qed.
Lemma value_given n l v : given n l v -> value_of n (texts l) None = Some v.
Proof.
  intros [v' before after H]. generalize (@None bytes) as d. induction before as [|[m y] before IH]; intro d; cbn [app map value_of fst snd]; [rewrite beq_refl; now apply value_none|apply IH].
Qed.
Lemma variable_given n l v : given_or_empty n l v -> variable n (texts l) = v.
Proof. unfold variable. intros [H|[H ->]]; [now rewrite (value_given n l v H)|now rewrite value_none]. Qed.
Lemma value_inv n l v : value_of n (texts l) None = Some v -> exists x, In (n, x) l.
Proof.
  intro H. assert (G : forall d, value_of n (texts l) d = Some v -> d = Some v \/ exists x, In (n, x) l); [|destruct (G None H) as [X|X]; [discriminate X|exact X]].
  clear H. induction l as [|[m y] l IH]; intros d H; [now left|]. cbn [map value_of fst snd] in H. destruct (beq n m) eqn:E; [apply beq_eq in E as ->; right; exists y; now left|].
  destruct (IH d H) as [X|[x X]]; [now left|right; exists x; now right].
Qed.
Lemma parse_unknown names is : options_and_words is -> Forall (fun o => plain_name (fst o) = true) (options is) -> (exists o, In o (options is) /\ ~ In (fst o) names) -> parseArgs names (arguments is) = None.
Proof.
  intros Ho Hp [o [Hin Hn]]. induction is as [|i is IH]; [contradiction|]. inversion Ho as [|? ? O1 O2]; subst. unfold arguments, options in *. cbn [flat_map] in *. apply Forall_app in Hp as [P1 P2]. specialize (IH O2 P2).
  apply in_app_or in Hin. destruct i as [w|n v|n v]; cbn [written app] in *.
  - destruct Hin as [[]|Hin]. destruct O1 as [c [w' [-> Hc]]]. cbn [parseArgs]. rewrite dash_not by exact Hc. exact (IH Hin).
  - inversion P1 as [|? ? P _]; subst. cbn [fst] in P. unfold plain_name in P; rewrite !andb_true_iff in P; destruct P as [[Pa Pb] Pc]; apply negb_true_iff in Pa, Pb.
    assert (Y : match n with [] => true | c :: _ => c =? 45 end = false) by (destruct n as [|c n]; [discriminate Pc|now apply negb_true_iff in Pc]).
    cbn [parseArgs]. destruct (dashes (n ++ txt "=" ++ v)) as [D1 D2]. rewrite D1, D2. cbn [negb orb].
    assert (L : len (txt "--" ++ n ++ txt "=" ++ v) >= 3) by (rewrite !len_app; change (len (txt "--")) with 2; change (len (txt "=")) with 1; unfold len; lia).
    destruct (Z.eqb_spec (len (txt "--" ++ n ++ txt "=" ++ v)) 1) as [E|_]; [lia|]. destruct (Z.eqb_spec (len (txt "--" ++ n ++ txt "=" ++ v)) 2) as [E|_]; [lia|].
    change (skipn 2 (txt "--" ++ n ++ txt "=" ++ v)) with (n ++ txt "=" ++ v). rewrite (cut_both n v Pa), Y. change (bs "help") with (txt "help"). rewrite Pb.
    destruct (existsb (beq n) names) eqn:X; [|reflexivity]. destruct Hin as [[<-|[]]|Hin]; [|now rewrite (IH Hin)].
    exfalso. apply Hn. apply existsb_exists in X as [m [Hm X]]. apply beq_eq in X as <-. exact Hm.
  - inversion P1 as [|? ? P _]; subst. cbn [fst] in P. unfold plain_name in P; rewrite !andb_true_iff in P; destruct P as [[Pa Pb] Pc]; apply negb_true_iff in Pa, Pb.
    assert (Y : match n with [] => true | c :: _ => c =? 45 end = false) by (destruct n as [|c n]; [discriminate Pc|now apply negb_true_iff in Pc]).
    cbn [parseArgs]. destruct (dashes n) as [D1 D2]. rewrite D1, D2. cbn [negb orb].
    assert (L : len (txt "--" ++ n) >= 3) by (rewrite len_app; change (len (txt "--")) with 2; destruct n; [discriminate Pc|rewrite len_cons; unfold len; lia]).
    destruct (Z.eqb_spec (len (txt "--" ++ n)) 1) as [E|_]; [lia|]. destruct (Z.eqb_spec (len (txt "--" ++ n)) 2) as [E|_]; [lia|].
    change (skipn 2 (txt "--" ++ n)) with n. rewrite (cut_name n Pa), Y. change (bs "help") with (txt "help"). rewrite Pb.
    destruct (existsb (beq n) names) eqn:X; [|reflexivity]. destruct Hin as [[<-|[]]|Hin]; [|now rewrite (IH Hin)].
    exfalso. apply Hn. apply existsb_exists in X as [m [Hm X]]. apply beq_eq in X as <-. exact Hm.
Qed.
Lemma options_app a b : options (a ++ b) = options a ++ options b.
Proof. apply flat_map_app. Qed.
Notation words is := (flat_map (fun i => match i with Word w => [w] | _ => [] end) is).
Lemma no_words is : only_options is -> words is = [].
Proof. induction 1 as [|i is H _ IH]; [reflexivity|]. cbn [flat_map]. rewrite IH. destruct i; [contradiction|reflexivity|reflexivity]. Qed.
Lemma plain_words is : options_and_words is -> Forall (fun w => plain_word w = true) (words is).
Proof. induction 1 as [|i is H _ IH]; [constructor|]. cbn [flat_map]. apply Forall_app. split; [|exact IH]. destruct i as [w| |]; constructor; [|constructor]. destruct H as [c [w' [-> Hc]]]. unfold plain_word. now rewrite dash_not by exact Hc. Qed.
Lemma only_more a : only_options a -> options_and_words a.
Proof. intro H. eapply Forall_impl; [|exact H]. cbn. intros [w| |] X; [contradiction|exact I|exact I]. Qed.
Lemma only_app a b : only_options a -> only_options b -> only_options (a ++ b).
Proof. intros. apply Forall_app. now split. Qed.
(** What cobra makes of such a line. *)
Lemma found sub names is c : command_line sub names is -> plain_word sub = true -> Forall (fun n => plain_name n = true) names -> findNext Recovery sub = Some c -> (forall w, findNext c w = None) ->
  exists os, innerfind 3 Root (arguments is) = (c, arguments os) /\ options_and_words os /\ options os = options is.
Proof.
  intros [a [b [e [-> [Ha [Hb [He [Wa [Wb Hn]]]]]]]]] Hs Hp Hf Hl. exists (a ++ b ++ e).
  assert (P : forall l, Forall (fun o : list Z * list Z => In (fst o) names) l -> Forall (fun o => plain_name (fst o) = true) l) by (intros l H; eapply Forall_impl; [|exact H]; cbn; intros o Ho; rewrite Forall_forall in Hp; now apply Hp).
  assert (O1 : options (a ++ b ++ e) = options (a ++ [Word (txt "recovery")] ++ b ++ [Word sub] ++ e)) by (rewrite !options_app; reflexivity).
  pose proof (plain_words e He) as We.
  split; [|split; [repeat (apply Forall_app; split); try assumption; now apply only_more|exact O1]].
  assert (S1 : stripFlags (arguments (a ++ [Word (txt "recovery")] ++ b ++ [Word sub] ++ e)) = txt "recovery" :: sub :: words e).
  { rewrite strip_flags; [|rewrite !flat_map_app; rewrite (no_words a), (no_words b) by assumption; cbn [flat_map app]; constructor; [reflexivity|constructor; [exact Hs|exact We]]|now apply P].
    rewrite !flat_map_app. rewrite (no_words a), (no_words b) by assumption. reflexivity. }
  assert (S2 : stripFlags (arguments ((a ++ b) ++ [Word sub] ++ e)) = sub :: words e).
  { rewrite strip_flags; [|rewrite !flat_map_app; rewrite (no_words a), (no_words b) by assumption; cbn [flat_map app]; constructor; [exact Hs|exact We]|apply P; rewrite !options_app; rewrite !options_app in Hn; cbn [options flat_map app] in Hn |- *; now rewrite <- app_assoc].
    rewrite !flat_map_app. rewrite (no_words a), (no_words b) by assumption. reflexivity. }
  cbn [innerfind]. rewrite S1. change (findNext Root (txt "recovery")) with (Some Recovery). cbn beta iota. rewrite minus_first; [|reflexivity|exact Ha|exact Wa]. rewrite app_assoc, S2, Hf.
  rewrite minus_first, <- app_assoc; [|exact Hs|now apply only_app|exact Wb]. destruct (stripFlags (arguments (a ++ b ++ e))) as [|w l]; [reflexivity|]. now rewrite Hl.
Qed.
Lemma parsed sub names is c : command_line sub names is -> plain_word sub = true -> Forall (fun n => plain_name n = true) names -> findNext Recovery sub = Some c -> (forall w, findNext c w = None) ->
  exists rest, innerfind 3 Root (arguments is) = (c, rest) /\ parseArgs names rest = Some (texts (options is)).
Proof.
  intros Hl H1 H2 H3 H4. destruct (found sub names is c Hl H1 H2 H3 H4) as [os [E [Ho Eo]]]. exists (arguments os). split; [exact E|]. rewrite <- Eo. apply parse_options; [exact Ho| |exact H2]. rewrite Eo. now destruct Hl as [a [b [e [_ [_ [_ [_ [_ [_ Hn]]]]]]]]].
Qed.
Lemma first_argument sub names is : command_line sub names is -> Forall (fun n => plain_name n = true) names -> goFlagParse (arguments is) = true <-> command_first is.
Proof.
  intros [a [b [e [-> [Ha [_ [_ [_ [_ Hn]]]]]]]]] Hp. destruct a as [|i a]; [split; [intros _; eexists; eexists; reflexivity|reflexivity]|].
  inversion Ha as [|? ? H _]; subst. destruct i as [w|n v|n v]; [contradiction| |]; (split; [intro G|intros [w [r E]]; discriminate E]); exfalso; unfold arguments in G; cbn [app flat_map written goFlagParse] in G.
  all: rewrite !options_app in Hn; cbn [options flat_map app] in Hn; inversion Hn as [|? ? N _]; subst; cbn [fst] in N; rewrite Forall_forall in Hp; specialize (Hp n N); unfold plain_name in Hp; rewrite !andb_true_iff in Hp; destruct Hp as [_ Pc].
  all: assert (Ln : n <> []) by (destruct n; [discriminate Pc|discriminate]).
  - rewrite (not_bare (n ++ txt "=" ++ v)) in G by (destruct n; [contradiction|discriminate]). destruct (dashes (n ++ txt "=" ++ v)) as [_ D]. rewrite D, orb_false_r in G. cbn [negb orb] in G. rewrite orb_false_r, len_app in G. change (len (txt "--")) with 2 in G. unfold len in G. lia.
  - rewrite (not_bare n Ln) in G. destruct (dashes n) as [_ D]. rewrite D, orb_false_r in G. cbn [negb orb] in G. rewrite orb_false_r, len_app in G. change (len (txt "--")) with 2 in G. unfold len in G. lia.
Qed.

Definition status_of (r : res unit) : outcome := match r with Ok _ => Exit 0 | Panic => Exit 2 | NoFuel => Hangs end.
(** * C125 *)
(** Options before the first word of the command end the program at once, with
    nothing printed; otherwise the command runs with the values given. *)
Theorem C125_data_refuted : forall fuel rt files spare is op sys tfile db tb, data_line is op sys tfile db tb ->
  (command_first is -> forall lines r, FromDataFile fuel rt files op sys tfile db tb = (lines, r) -> main fuel rt files spare (arguments is) = (lines, status_of r))
  /\ (~ command_first is -> main fuel rt files spare (arguments is) = ([], Exit 2)).
Proof.
  intros fuel rt files spare is op sys tfile db tb [Hl [H1 [H2 [H3 [H4 H5]]]]].
  assert (HP : Forall (fun n => plain_name n = true) data_names) by (repeat constructor).
  destruct (parsed (txt "FromDataFile") data_names is DataCommand Hl eq_refl HP eq_refl (fun _ => eq_refl)) as [os [E1 E3]].
  assert (M : main fuel rt files spare (arguments is) = if goFlagParse (arguments is) then finish (FromDataFile fuel rt files op sys tfile db tb) else ([], Exit 2)).
  { unfold main. rewrite E1. cbn beta iota. change (flags_of DataCommand) with data_names. rewrite E3, no_help.
    change (required_of DataCommand) with [txt "SysDataFile"; txt "TableDataFile"; txt "DBName"; txt "TableName"]. cbn [forallb]. rewrite (value_given _ _ _ H2), (value_given _ _ _ H3), (value_given _ _ _ H4), (value_given _ _ _ H5). cbn [andb].
    change (bs "OpType") with (txt "OpType"). change (bs "SysDataFile") with (txt "SysDataFile"). change (bs "TableDataFile") with (txt "TableDataFile"). change (bs "DBName") with (txt "DBName"). change (bs "TableName") with (txt "TableName").
    rewrite (variable_given _ _ _ H1), !(variable_given _ _ _ (or_introl H2)), !(variable_given _ _ _ (or_introl H3)), !(variable_given _ _ _ (or_introl H4)), !(variable_given _ _ _ (or_introl H5)). reflexivity. }
  pose proof (first_argument _ _ _ Hl HP) as F. split; [intros Hf lines r E|intro Hf]; rewrite M.
  - apply F in Hf. rewrite Hf, E. now destruct r.
  - destruct (goFlagParse (arguments is)); [exfalso; apply Hf; now apply F|reflexivity].
Qed.
Print Assumptions C125_data_refuted.
Theorem C125_redo_refuted : forall fuel rt files spare is sys rfile db tb, redo_line is sys rfile db tb ->
  (command_first is -> forall lines r, FromRedoFile fuel rt files sys rfile db tb spare = (lines, r) -> main fuel rt files spare (arguments is) = (lines, status_of r))
  /\ (~ command_first is -> main fuel rt files spare (arguments is) = ([], Exit 2)).
Proof.
  intros fuel rt files spare is sys rfile db tb [Hl [H2 [H3 [H4 H5]]]].
  assert (HP : Forall (fun n => plain_name n = true) redo_names) by (repeat constructor).
  destruct (parsed (txt "FromRedoFile") redo_names is RedoCommand Hl eq_refl HP eq_refl (fun _ => eq_refl)) as [os [E1 E3]].
  assert (M : main fuel rt files spare (arguments is) = if goFlagParse (arguments is) then finish (FromRedoFile fuel rt files sys rfile db tb spare) else ([], Exit 2)).
  { unfold main. rewrite E1. cbn beta iota. change (flags_of RedoCommand) with redo_names. rewrite E3, no_help.
    change (required_of RedoCommand) with [txt "SysDataFile"; txt "RedoFile"]. cbn [forallb]. rewrite (value_given _ _ _ H2), (value_given _ _ _ H3). cbn [andb].
    change (bs "SysDataFile") with (txt "SysDataFile"). change (bs "RedoFile") with (txt "RedoFile"). change (bs "DBName") with (txt "DBName"). change (bs "TableName") with (txt "TableName").
    rewrite !(variable_given _ _ _ (or_introl H2)), !(variable_given _ _ _ (or_introl H3)), !(variable_given _ _ _ H4), !(variable_given _ _ _ H5). reflexivity. }
  pose proof (first_argument _ _ _ Hl HP) as F. split; [intros Hf lines r E|intro Hf]; rewrite M.
  - apply F in Hf. rewrite Hf, E. now destruct r.
  - destruct (goFlagParse (arguments is)); [exfalso; apply Hf; now apply F|reflexivity].
Qed.
Print Assumptions C125_redo_refuted.
(** A command without one of its required options does not run. *)
Theorem C125_required_partial : forall fuel rt files spare is sub names required,
  In (sub, names, required) [(txt "FromDataFile", data_names, map txt ["SysDataFile"; "TableDataFile"; "DBName"; "TableName"]); (txt "FromRedoFile", redo_names, map txt ["SysDataFile"; "RedoFile"])] ->
  command_line sub names is -> (exists n, In n required /\ forall v, ~ In (n, v) (options is)) ->
  main fuel rt files spare (arguments is) = ([], Exit 2).
Proof.
  intros fuel rt files spare is sub names required HI Hl [n [Hn Hv]].
  assert (N : value_of n (texts (options is)) None = None) by (now apply value_none).
  assert (F : forall c, In n (required_of c) -> forallb (fun n => match value_of n (texts (options is)) None with Some _ => true | None => false end) (required_of c) = false).
  { intros c Hc. apply not_true_is_false. intro H. rewrite forallb_forall in H. specialize (H n Hc). now rewrite N in H. }
  destruct HI as [E|[E|[]]]; injection E as <- <- <-.
  - destruct (parsed (txt "FromDataFile") data_names is DataCommand Hl eq_refl ltac:(repeat constructor) eq_refl (fun _ => eq_refl)) as [os [E1 E3]].
    unfold main. rewrite E1. cbn beta iota. change (flags_of DataCommand) with data_names. rewrite E3, no_help. rewrite F by exact Hn. reflexivity.
  - destruct (parsed (txt "FromRedoFile") redo_names is RedoCommand Hl eq_refl ltac:(repeat constructor) eq_refl (fun _ => eq_refl)) as [os [E1 E3]].
    unfold main. rewrite E1. cbn beta iota. change (flags_of RedoCommand) with redo_names. rewrite E3, no_help. rewrite F by exact Hn. reflexivity.
Qed.
Print Assumptions C125_required_partial.
(** With an option it does not have, a command does not run. *)
Lemma spelled_plain n : spelled n -> plain_name n = true.
Proof.
  intros [[c [n' [-> Hc]]] [He Hh]]. unfold plain_name. rewrite !andb_true_iff, !negb_true_iff. split; [split|].
  - apply not_true_is_false. intro H. apply existsb_exists in H as [x [Hx E]]. apply He. now replace 61 with x by lia.
  - now apply beq_neq.
  - now apply Z.eqb_neq.
Qed.
Theorem C125_unknown_partial : forall fuel rt files spare is sub names names',
  In (sub, names) [(txt "FromDataFile", data_names); (txt "FromRedoFile", redo_names)] ->
  command_line sub names' is -> Forall spelled names' -> (exists o, In o (options is) /\ ~ In (fst o) names) ->
  main fuel rt files spare (arguments is) = ([], Exit 2).
Proof.
  intros fuel rt files spare is sub names names' HI Hl Hs Hu.
  assert (HP : Forall (fun n => plain_name n = true) names') by (eapply Forall_impl; [|exact Hs]; exact spelled_plain).
  assert (HO : Forall (fun o => plain_name (fst o) = true) (options is)) by (destruct Hl as [a [b [e [_ [_ [_ [_ [_ [_ Hn]]]]]]]]]; eapply Forall_impl; [|exact Hn]; cbn; intros o Ho; rewrite Forall_forall in HP; now apply HP).
  destruct HI as [E|[E|[]]]; injection E as <- <-.
  - destruct (found (txt "FromDataFile") names' is DataCommand Hl eq_refl HP eq_refl (fun _ => eq_refl)) as [os [E1 [E2 E3]]]. rewrite <- E3 in Hu, HO.
    unfold main. rewrite E1. cbn beta iota. change (flags_of DataCommand) with data_names. now rewrite parse_unknown.
  - destruct (found (txt "FromRedoFile") names' is RedoCommand Hl eq_refl HP eq_refl (fun _ => eq_refl)) as [os [E1 [E2 E3]]]. rewrite <- E3 in Hu, HO.
    unfold main. rewrite E1. cbn beta iota. change (flags_of RedoCommand) with redo_names. now rewrite parse_unknown.
Qed.
Print Assumptions C125_unknown_partial.
Definition line_a : list item :=
  [Word (txt "recovery"); Apart (txt "OpType") (txt "PrintData"); Word (txt "FromDataFile"); Joined (txt "OpType") (txt "RecoveryData"); Apart (txt "SysDataFile") (txt "--x");
   Joined (txt "TableDataFile") (txt "a=b"); Apart (txt "DBName") (txt "recovery"); Joined (txt "TableName") []].
Definition line_b : list item :=
  [Joined (txt "OpType") (txt "RecoveryData"); Word (txt "recovery"); Word (txt "FromDataFile"); Apart (txt "SysDataFile") (txt "ibdata1");
   Apart (txt "TableDataFile") (txt "t.ibd"); Apart (txt "DBName") (txt "test"); Apart (txt "TableName") (txt "t")].
Definition line_c : list item :=
  [Word (txt "recovery"); Word (txt "FromRedoFile"); Apart (txt "SysDataFile") (txt "ibdata1"); Word (txt "now"); Apart (txt "RedoFile") (txt "a,b"); Apart (txt "DBName") (txt "test")].
Ltac last_value k := match goal with |- given ?n ?l ?v => exact (given_last n v (firstn k l) (skipn (S k) l) ltac:(intros x H; cbn in H; repeat (destruct H as [H|H]; [discriminate H|]); exact H)) end.
Ltac is_line a b c := exists a, b, c; split; [reflexivity|]; repeat (split; [repeat (constructor; [first [exact I|discriminate|eexists; eexists; split; [reflexivity|discriminate]]|]); constructor|]); repeat (constructor; [cbn; tauto|]); constructor.
Example C125_case :
  data_line line_a (txt "RecoveryData") (txt "--x") (txt "a=b") (txt "recovery") [] /\ command_first line_a
  /\ data_line line_b (txt "RecoveryData") (txt "ibdata1") (txt "t.ibd") (txt "test") (txt "t") /\ ~ command_first line_b
  /\ redo_line line_c (txt "ibdata1") (txt "a,b") (txt "test") [] /\ command_first line_c
  /\ command_line (txt "FromDataFile") data_names [Word (txt "recovery"); Word (txt "FromDataFile"); Apart (txt "DBName") (txt "test")].
Proof.
  split; [|split; [eexists; eexists; reflexivity|split; [|split; [intros [w [r H]]; discriminate H|split; [|split; [eexists; eexists; reflexivity|]]]]]].
  - split; [is_line (@nil item) [Apart (txt "OpType") (txt "PrintData")] (skipn 3 line_a)|]. split; [left; last_value 1%nat|]. split; [last_value 2%nat|]. split; [last_value 3%nat|]. split; [last_value 4%nat|last_value 5%nat].
  - split; [is_line [Joined (txt "OpType") (txt "RecoveryData")] (@nil item) (skipn 3 line_b)|]. split; [left; last_value 0%nat|]. split; [last_value 1%nat|]. split; [last_value 2%nat|]. split; [last_value 3%nat|last_value 4%nat].
  - split; [is_line (@nil item) (@nil item) (skipn 2 line_c)|]. split; [last_value 0%nat|]. split; [last_value 1%nat|]. split; [left; last_value 2%nat|right]. split; [|reflexivity]. intros x H. cbn in H. repeat (destruct H as [H|H]; [discriminate H|]). exact H.
  - is_line (@nil item) (@nil item) [Apart (txt "DBName") (txt "test")].
Qed.

Example C125_unknown_case : command_line (txt "FromDataFile") (txt "Tablename" :: data_names) (line_b ++ [Joined (txt "Tablename") (txt "t")]) /\ Forall spelled (txt "Tablename" :: data_names)
  /\ (exists o, In o (options (line_b ++ [Joined (txt "Tablename") (txt "t")])) /\ ~ In (fst o) data_names).
Proof.
  split; [is_line [Joined (txt "OpType") (txt "RecoveryData")] (@nil item) (skipn 3 line_b ++ [Joined (txt "Tablename") (txt "t")])|]. split.
  - repeat (constructor; [split; [eexists; eexists; split; [reflexivity|discriminate]|split; [cbn; lia|discriminate]]|]). constructor.
  - exists (txt "Tablename", txt "t"). split; [cbn; auto 10|]. cbn. intro H. repeat (destruct H as [H|H]; [discriminate H|]). exact H.
Qed.

(** * C126 *)
(** The system tablespace, or the table's file, cannot be opened: one message,
    status 0.  The redo command does not even print a message. *)
Theorem C126_data_refuted : forall fuel rt files spare is op sys tfile db tb, data_line is op sys tfile db tb -> command_first is -> files sys = None ->
  exists message, main fuel rt files spare (arguments is) = ([message], Exit 0).
Proof.
  intros fuel rt files spare is op sys tfile db tb Hl Hf E. exists err_open. apply (proj1 (C125_data_refuted fuel rt files spare is op sys tfile db tb Hl) Hf _ (Ok tt)).
  unfold FromDataFile. rewrite E. reflexivity.
Qed.
Print Assumptions C126_data_refuted.
Theorem C126_table_refuted : forall fuel rt files spare is op sys tfile db tb d pages, data_line is op sys tfile db tb -> command_first is ->
  stores_dictionary pages d -> consistent d -> (Z.to_nat 16384 < fuel)%nat -> files sys = Some (map IoBytes pages) -> files tfile = None ->
  exists message, main fuel rt files spare (arguments is) = ([message], Exit 0).
Proof.
  intros fuel rt files spare is op sys tfile db tb d pages Hl Hf Hs Hc Hfuel F1 F2. exists err_open. apply (proj1 (C125_data_refuted fuel rt files spare is op sys tfile db tb Hl) Hf _ (Ok tt)).
  destruct (dict_read fuel rt pages d Hs Hc Hfuel) as [tm [E _]]. unfold FromDataFile. rewrite F1, E, F2. reflexivity.
Qed.
Print Assumptions C126_table_refuted.
Theorem C126_redo_refuted : forall fuel rt files spare is sys rfile db tb, redo_line is sys rfile db tb -> command_first is -> files sys = None ->
  main fuel rt files spare (arguments is) = ([], Exit 0).
Proof.
  intros fuel rt files spare is sys rfile db tb Hl Hf E. apply (proj1 (C125_redo_refuted fuel rt files spare is sys rfile db tb Hl) Hf _ (Ok tt)).
  unfold FromRedoFile. rewrite E. reflexivity.
Qed.
Print Assumptions C126_redo_refuted.
(** What the status does say: whether the command crashed. *)
Theorem C126_crash_partial : forall fuel rt files spare is op sys tfile db tb, data_line is op sys tfile db tb -> command_first is ->
  forall lines, (main fuel rt files spare (arguments is) = (lines, Exit 2) <-> FromDataFile fuel rt files op sys tfile db tb = (lines, Panic))
    /\ (main fuel rt files spare (arguments is) = (lines, Exit 0) <-> FromDataFile fuel rt files op sys tfile db tb = (lines, Ok tt)).
Proof.
  intros fuel rt files spare is op sys tfile db tb Hl Hf lines. pose proof (proj1 (C125_data_refuted fuel rt files spare is op sys tfile db tb Hl) Hf) as H.
  destruct (FromDataFile fuel rt files op sys tfile db tb) as [l r]. rewrite (H l r eq_refl). destruct r as [[]| |]; cbn [status_of]; split; split; intro E; congruence.
Qed.
Print Assumptions C126_crash_partial.
Theorem C126_redo_crash_partial : forall fuel rt files spare is sys rfile db tb, redo_line is sys rfile db tb -> command_first is ->
  forall lines, (main fuel rt files spare (arguments is) = (lines, Exit 2) <-> FromRedoFile fuel rt files sys rfile db tb spare = (lines, Panic))
    /\ (main fuel rt files spare (arguments is) = (lines, Exit 0) <-> FromRedoFile fuel rt files sys rfile db tb spare = (lines, Ok tt)).
Proof.
  intros fuel rt files spare is sys rfile db tb Hl Hf lines. pose proof (proj1 (C125_redo_refuted fuel rt files spare is sys rfile db tb Hl) Hf) as H.
  destruct (FromRedoFile fuel rt files sys rfile db tb spare) as [l r]. rewrite (H l r eq_refl). destruct r as [[]| |]; cbn [status_of]; split; split; intro E; congruence.
Qed.
Print Assumptions C126_redo_crash_partial.
Example C126_case : forall rt,
  main 5 rt (fun _ => None) 0 (arguments line_a) = ([err_open], Exit 0) /\ main 5 rt (fun _ => None) 0 (arguments line_c) = ([], Exit 0)
  /\ main 5 rt (fun _ => None) 0 (arguments line_b) = ([], Exit 2).
Proof. intro rt. repeat split; reflexivity. Qed.
