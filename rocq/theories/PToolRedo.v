(** Proofs about the redo command as a whole. *)
From Coq Require Import ZifyBool.
From Verif Require Import GoBase Utils Ibdata Redo Cmd SpecInno SpecText SpecSql SpecRecord SpecRow SpecPage SpecDict SpecTool SpecRedo SpecUndo SpecToolRedo SpecCmd
  PBase PWire PValue PText PRec PPage PSql PFile PDict PUndo PTool PropCmd PropRedo.
Local Open Scope list_scope.
Ltac Zify.zify_post_hook ::= Z.div_mod_to_equations.

(** * Columns *)
Lemma column_lengths pages d : stores_dictionary pages d -> Forall (fun c => 0 <= cd_len c < 2 ^ 32) (dd_columns d).
Proof.
  intros [_ [r1 [r2 [r3 [r4 [_ [_ [H _]]]]]]]]. destruct H as [page [others [contents [_ [_ [H <-]]]]]].
  induction H as [|p defs ps contents Hp _ IHt]; [constructor|]. cbn [List.concat]. apply Forall_app. split; [|exact IHt]. clear IHt.
  destruct Hp as [defs [_ [offs [_ H]]]|_]; [|constructor].
  induction H as [|off c offs cs [_ [wide [fs [_ [front [extra [_ HM]]]]]]] _ IH]; constructor; [|exact IH].
  unfold columns_record in HM. repeat match goal with H : Forall2 _ (_ :: _) _ |- _ => inversion H; subst; clear H end.
  match goal with H : is_num 4 (cd_len c) _ |- _ => destruct H as [H _]; exact H end.
Qed.
Lemma fixed_layout c : readable_column c -> 0 <= cd_len c < 2 ^ 32 ->
  fixed_of (descriptor c) = match l_fixed (column_layout c) with Some n => n | None => 0 end /\ 0 <= c_len (descriptor c) < 2 ^ 63.
Proof.
  unfold readable_column, descriptor, fixed_of, column_layout, inno_layout. cbn [c_len c_type l_fixed]. intros H Hl.
  split; [|destruct (cd_mtype c =? 4); lia].
  destruct H as [[E _]|[[E _]|[[E _]|[[E _]|[[E _]|[[E _]|[[E _]|[E _]]]]]]]]; rewrite E; reflexivity.
Qed.
Lemma first_named l1 l2 c : In c l1 -> NoDup (map c_name l1) -> column_named (c_name c) (l1 ++ l2) c.
Proof.
  induction l1 as [|x l1 IH]; [intros []|]. intros [->|Hi] Hn; cbn [app]; [now constructor|]. cbn [map] in Hn. inversion Hn as [|? ? N1 N2]; subst.
  apply cn_next; [|now apply IH]. intro E. apply N1. rewrite E. now apply in_map.
Qed.
Lemma slot_past key rest p c : nth_error (key_slots key rest) p = Some (User c) -> (List.length key <= p)%nat ->
  In c rest /\ forall (a b : Column) l, List.length l = List.length key -> nth_error (l ++ [a; b] ++ map descriptor rest) p = Some (descriptor c).
Proof.
  intros H Hp. unfold key_slots in H. rewrite nth_error_app2 in H by (rewrite map_length; lia). rewrite map_length in H.
  destruct (p - List.length key)%nat as [|[|q]] eqn:Eq; cbn [app nth_error] in H; [discriminate H|discriminate H|].
  rewrite nth_error_map in H. destruct (nth_error rest q) as [c'|] eqn:En; [|discriminate H]. injection H as ->.
  split; [now apply nth_error_In in En|]. intros a b l Hl. rewrite nth_error_app2 by lia. rewrite Hl, Eq. cbn [app nth_error]. now rewrite nth_error_map, En.
Qed.

(** * Values *)
Lemma value_text rt c v k rest : encodes rt c v (FBytes k) -> textual v -> readable_column c -> 0 <= cd_len c < 2 ^ 32 ->
  (mysql_type c = 12 -> all_bytes rest /\ 3 <= len rest) ->
  exists g bin x, v = SStr x /\ text_of rt g x
    /\ ParseData rt (c_type (descriptor c)) (c_mysql (descriptor c)) (k ++ rest) (zlen k) (fixed_of (descriptor c)) (c_unsigned (descriptor c)) (c_binary (descriptor c)) = ([], Ok (g, bin)).
Proof.
  intros He Hq Hr Hl Hm. destruct (fixed_layout c Hr Hl) as [-> _]. destruct (value_decoded rt c v (FBytes k) rest He) as [g [bin [E Hs]]]; [discriminate|exact Hm|].
  exists g, bin. destruct v as [|x|x|x]; cbn [textual] in Hq; try contradiction; [inversion He|]. exists x. split; [reflexivity|]. split; [|exact E].
  inversion Hs; subst. assumption.
Qed.
Lemma keys_shown rt e cvs ks : Forall2 (fun cv k => encodes rt (fst cv) (snd cv) (FBytes k)) cvs ks ->
  Forall (fun cv => textual (snd cv) /\ mysql_type (fst cv) <> 12 /\ readable_column (fst cv) /\ 0 <= cd_len (fst cv) < 2 ^ 32
            /\ column_named (cd_name (fst cv)) (t_columns e) (descriptor (fst cv))) cvs ->
  exists shown, key_shown rt e (map cd_name (map fst cvs)) ks shown []
    /\ map (fun k => (fst k, SStr (snd k))) shown = map (fun cv => (cd_name (fst cv), snd cv)) cvs.
Proof.
  induction 1 as [|[c v] k cvs ks He _ IH]; intro HF.
  - exists []. split; [constructor|reflexivity].
  - inversion HF as [|? ? [H1 [H2 [H3 [H4 H5]]]] HF']; subst. destruct (IH HF') as [shown [I1 I2]]. cbn [fst snd] in *.
    destruct (value_text rt c v k [] He H1 H3 H4) as [g [bin [x [-> [Hx E]]]]]; [contradiction|]. rewrite app_nil_r in E.
    exists ((cd_name c, x) :: shown). split; [|cbn [map fst snd]; now rewrite I2].
    cbn [map fst]. apply (key_quiet rt e _ _ _ _ (descriptor c) g bin x); [exact H5|apply (fixed_layout c H3 H4)|exact E|left; exact Hx|exact I1].
Qed.
Definition shown_value (o : option bytes) : sqlval := match o with None => SNull | Some x => SStr x end.
Lemma olds_shown rt e ss m cvs fs : Forall2 (old_of rt ss) cvs fs -> Forall (fun cv => mysql_type (fst cv) = 12 -> 3 <= m) cvs ->
  Forall (fun cv => textual (snd cv)) cvs -> (forall cv, In cv cvs -> In (fst cv) (users ss) -> readable_column (fst cv) /\ 0 <= cd_len (fst cv) < 2 ^ 32) ->
  Forall (fun f => forall c, nth_error ss (Z.to_nat (fst f)) = Some (User c) -> nth_error (t_columns e) (Z.to_nat (fst f)) = Some (descriptor c)) fs ->
  exists shown, old_shown rt e m fs shown [] /\ map (fun o => (fst o, shown_value (snd o))) shown = map (fun cv => (cd_name (fst cv), snd cv)) cvs.
Proof.
  induction 1 as [|[c v] [p ob] cvs fs [Hn He] _ IH]; intros HM HQ HR HP.
  - exists []. split; [constructor|reflexivity].
  - inversion HM as [|? ? M1 M2]; subst. inversion HQ as [|? ? Q1 Q2]; subst. inversion HP as [|? ? P1 P2]; subst. cbn [fst snd] in *.
    destruct IH as [shown [I1 I2]]; [exact M2|exact Q2|intros cv Hi; apply HR; now right|exact P2|]. specialize (P1 c Hn).
    destruct (HR (c, v) (or_introl eq_refl)) as [Hr Hl].
    { apply nth_error_In in Hn. unfold users. apply in_flat_map. exists (User c). split; [exact Hn|now left]. }
    cbn [fst snd] in *. destruct ob as [b|].
    + assert (HX : exists x, v = SStr x).
      { destruct v as [|x|x|x]; cbn [textual] in Q1; try contradiction; [inversion He|now exists x]. }
      destruct HX as [x ->]. exists ((cd_name c, Some x) :: shown). split; [|cbn [map fst snd shown_value]; now rewrite I2].
      apply (old_quiet rt e m p b (descriptor c) x); [exact P1|apply (fixed_layout c Hr Hl)| |exact I1].
      intros after Ha H5. destruct (value_text rt c (SStr x) b after He Q1 Hr Hl) as [g [bin [y [Ey [Hy E]]]]].
      * intro H12. split; [exact Ha|]. specialize (M1 H12). unfold zlen, len in *; lia.
      * injection Ey as <-. exists g, bin. split; [exact E|exact Hy].
    + assert (v = SNull) as -> by (inversion He; reflexivity). exists ((cd_name c, None) :: shown). split; [|cbn [map fst snd shown_value]; now rewrite I2].
      apply (old_null rt e m p (descriptor c)); [exact P1|exact I1].
Qed.

(** * The statement reads back *)
Lemma item_equals n o : equals n o = item_text (n, shown_value o).
Proof. unfold equals, item_text. destruct o as [x|]; cbn [fst snd shown_value]; cbn [txt app]; reflexivity. Qed.
Lemma undo_is_text db tb old key : undo_statement db tb old key
  = update_text db tb (map (fun o => (fst o, shown_value (snd o))) old) (map (fun k => (fst k, SStr (snd k))) key).
Proof.
  unfold undo_statement, update_text. rewrite !joined_and, !map_map.
  rewrite (map_ext (fun o : bytes * option bytes => equals (fst o) (snd o)) (fun o => item_text (fst o, shown_value (snd o)))) by (intro; apply item_equals).
  rewrite (map_ext (fun k : bytes * bytes => equals (fst k) (Some (snd k))) (fun k => item_text (fst k, SStr (snd k)))) by (intro; apply item_equals).
  cbn [txt app]. rewrite <- ?app_assoc. reflexivity.
Qed.

(** * The key *)
Lemma tight_trim s : tight s -> Forall (fun b => 0 <= b < 256) s -> trim_space s = s.
Proof. intros Ht Hb. pose proof (proj2 (trim_space_exact s 0 Hb) Ht) as H. cbn [repeat] in H. now rewrite app_nil_r in H. Qed.
Lemma key_is d t e key rest : consistent d -> has_key d (td_id t) key rest -> t_indexes e = map (index_entry d) (indexes_of d (td_id t)) ->
  Forall (fun i => tight (id_name i) /\ Forall (fun b => 0 <= b < 256) (id_name i)) (indexes_of d (td_id t)) -> key_names e (map cd_name key).
Proof.
  intros Hc [i [Hi [Hp [Hk _]]]] Hx Ht. destruct (in_split _ _ Hi) as [l1 [l2 El]].
  exists (map (index_entry d) l1), (id_id i), (snd (index_entry d i)), (map (index_entry d) l2). split; [rewrite Hx, El, map_app; reflexivity|].
  rewrite Forall_forall in Ht. split.
  - rewrite <- map_app. apply Forall_map, Forall_forall. intros j Hj HC. unfold clustered_name in HC. cbn [index_entry snd ix_name] in HC.
    assert (Hj' : In j (indexes_of d (td_id t))) by (rewrite El; apply in_app_or in Hj as [Hj|Hj]; apply in_or_app; [now left|right; now right]).
    destruct (Ht j Hj') as [T1 T2]. rewrite (tight_trim _ T1 T2) in HC.
    destruct Hc as [_ [_ [_ [_ [H1 _]]]]]. specialize (H1 (td_id t)). rewrite El in H1.
    apply in_app_or in Hj as [Hj|Hj]; apply in_split in Hj as [a [b ->]].
    + apply (H1 a j b i l2); [rewrite <- app_assoc; reflexivity|exact HC|now left].
    + apply (H1 l1 i a j b); [reflexivity|now left|exact HC].
  - left. cbn [index_entry snd ix_name ix_fields]. destruct (Ht i Hi) as [T1 T2]. rewrite (tight_trim _ T1 T2). split; [exact Hp|]. rewrite Hk, map_map. reflexivity.
Qed.

(** * An undo record *)
Lemma nodup_front {A} (a b : list A) : NoDup (a ++ b) -> NoDup a.
Proof. induction a as [|x a IH]; intro H; [constructor|]. cbn [app] in H. inversion H as [|? ? N1 N2]; subst. constructor; [|now apply IH]. intro Hi. apply N1. apply in_or_app. now left. Qed.

Lemma undo_shown rt pages d tm u w m : stores_dictionary pages d -> consistent d -> represents (dd_tables d) (placed d) tm -> undo_ok u ->
  datetime_room w m -> undo_of rt d u w -> shown_update d u w ->
  exists e key, mget tm (un_table u) = Some e /\ t_db e = up_db w /\ t_name e = up_tb w /\ key_names e (map cd_name (map fst (up_key w)))
    /\ key_shown rt e (map cd_name (map fst (up_key w))) (un_keys u) key []
    /\ map (fun k => (fst k, SStr (snd k))) key = map (fun cv => (cd_name (fst cv), snd cv)) (up_key w)
    /\ (un_type u = UNDO_UPDATE -> exists old, old_shown rt e m (un_changes u) old []
          /\ map (fun o => (fst o, shown_value (snd o))) old = map (fun cv => (cd_name (fst cv), snd cv)) (up_old w)).
Proof.
  intros Hs Hc HR Hok HM [t [rest [Ht [Hid [Hnm [Hk [HK [HO HU]]]]]]]] [P1 [P2 [[rest' HE] [P4 P5]]]].
  rewrite Hid in HE, P4 |- *. destruct (represents_in d _ tm t Hc HR Ht) as [e [Hg HP]].
  pose proof (placed_agrees d tm Hc HR) as [_ [_ HA]]. destruct (HA t Ht) as [e' [Hg' [Hn' [_ [_ Hx]]]]]. rewrite Hg in Hg'. injection Hg' as <-.
  destruct (named_unique _ _ _ _ _ Hnm Hn') as [Ed Et]. set (key := map fst (up_key w)) in *.
  assert (Hlead : exists i, In i (indexes_of d (td_id t)) /\ primary i /\ map cd_name key = map fd_column (fields_of d (id_id i))).
  { destruct Hk as [i [H1 [H2 [H3 _]]]]. eauto. }
  assert (Hrest : rest = rest').
  { destruct Hk as [_ [_ [_ [_ [_ Hr]]]]]. rewrite HE in Hr. rewrite Hr. pose proof Hc as [_ [_ [_ [_ [_ [Hnd _]]]]]]. specialize (Hnd (td_id t)). rewrite HE, map_app in Hnd.
    clear - Hnd. rewrite filter_app.
    assert (F1 : forall l, incl l key -> filter (fun c => negb (existsb (fun k => if list_eq_dec Z.eq_dec (cd_name k) (cd_name c) then true else false) key)) l = []).
    { induction l as [|x l IH]; intro Hl; [reflexivity|]. cbn [filter]. assert (existsb (fun k => if list_eq_dec Z.eq_dec (cd_name k) (cd_name x) then true else false) key = true) as ->.
      { apply existsb_exists. exists x. split; [apply Hl; now left|]. now destruct (list_eq_dec Z.eq_dec (cd_name x) (cd_name x)). }
      cbn [negb]. apply IH. intros y Hy. apply Hl. now right. }
    rewrite F1 by (apply incl_refl). cbn [app].
    assert (F2 : forall l, (forall c, In c l -> ~ In (cd_name c) (map cd_name key)) -> filter (fun c => negb (existsb (fun k => if list_eq_dec Z.eq_dec (cd_name k) (cd_name c) then true else false) key)) l = l).
    { induction l as [|x l IH]; intro Hl; [reflexivity|]. cbn [filter]. destruct (existsb (fun k => if list_eq_dec Z.eq_dec (cd_name k) (cd_name x) then true else false) key) eqn:E.
      - exfalso. apply existsb_exists in E as [y [Hy E]]. destruct (list_eq_dec Z.eq_dec (cd_name y) (cd_name x)) as [E'|]; [|discriminate E]. apply (Hl x (or_introl eq_refl)). rewrite <- E'. now apply in_map.
      - cbn [negb]. f_equal. apply IH. intros c Hi. apply Hl. now right. }
    apply F2. intros c Hi Hin. clear F1 F2. induction key as [|k key IH]; [contradiction|]. cbn [map app] in Hnd, Hin. inversion Hnd as [|? ? N1 N2]; subst. destruct Hin as [E|Hin]; [|exact (IH N2 Hin)].
    apply N1. rewrite E. apply in_or_app. right. now apply in_map. }
  subst rest'. pose proof (placed_leading d t e key rest Hc HP HE Hlead) as Ec.
  pose proof (column_lengths pages d Hs) as Hlen. rewrite Forall_forall in Hlen, HO.
  assert (Hcol : forall c, In c (columns_of d (td_id t)) -> readable_column c /\ 0 <= cd_len c < 2 ^ 32).
  { intros c Hi. split; [apply (HO c Hi)|]. apply Hlen. unfold columns_of in Hi. apply filter_In in Hi. tauto. }
  assert (Hsub : forall cv, In cv (up_key w) -> In (fst cv) key) by (intros cv Hi; unfold key; now apply in_map).
  destruct (keys_shown rt e (up_key w) (un_keys u) HK) as [shown [S1 S2]].
  { apply Forall_forall. intros cv Hi. rewrite Forall_forall in P1. destruct (P1 cv Hi) as [Q1 Q2]. split; [exact Q1|]. split; [exact Q2|].
    pose proof (Hsub cv Hi) as Hin. destruct (Hcol (fst cv)) as [C1 C2]; [rewrite HE; apply in_or_app; now left|]. split; [exact C1|]. split; [exact C2|].
    rewrite Ec. apply (first_named (map descriptor (rev key)) _ (descriptor (fst cv))).
    - apply in_map. now apply in_rev in Hin.
    - rewrite map_map. cbn [descriptor c_name]. change (NoDup (map cd_name (rev key))). rewrite map_rev. apply NoDup_rev.
      pose proof Hc as [_ [_ [_ [_ [_ [Hnd _]]]]]]. specialize (Hnd (td_id t)). rewrite HE, map_app in Hnd. now apply nodup_front in Hnd. }
  exists e, shown. split; [exact Hg|]. split; [now symmetry|]. split; [now symmetry|]. split; [exact (key_is d t e key rest Hc Hk Hx P4)|]. split; [exact S1|]. split; [exact S2|].
  intro HT. pose proof (P5 HT) as HPos. apply (olds_shown rt e (key_slots key rest) m (up_old w) (un_changes u) (HU HT) HM).
  - exact P2.
  - intros cv _ Hi. apply Hcol. rewrite HE. unfold users, key_slots in Hi. apply in_flat_map in Hi as [s [Hi1 Hi2]]. destruct s as [n|c]; [contradiction|]. destruct Hi2 as [<-|[]].
    apply in_app_or in Hi1 as [X|[X|[X|X]]]; try discriminate X; apply in_map_iff in X as [c' [X1 X2]]; injection X1 as ->; apply in_or_app; tauto.
  - destruct Hok as [_ [_ [_ [_ [_ [_ [_ [_ [_ [Hf _]]]]]]]]]]. rewrite Forall_forall in Hf, HPos. apply Forall_forall. intros f Hi c Hn. rewrite Ec. destruct (Hf f Hi) as [Hf1 _]. specialize (HPos f Hi).
    assert (Hl : zlen (up_key w) = zlen key) by (unfold zlen, key; now rewrite map_length). rewrite Hl in HPos. unfold zlen in HPos.
    apply (slot_past key rest _ c Hn); [lia|]. now rewrite map_length, rev_length.
Qed.

(** * The log *)
Lemma line_verbatim w old key : Forall (fun cv => textual (snd cv)) (up_old w) ->
  map (fun k => (fst k, SStr (snd k))) key = map (fun cv => (cd_name (fst cv), snd cv)) (up_key w) ->
  map (fun o => (fst o, shown_value (snd o))) old = map (fun cv => (cd_name (fst cv), snd cv)) (up_old w) ->
  undo_statement (up_db w) (up_tb w) old key = verbatim w.
Proof.
  intros HT Ek Eo. unfold verbatim. f_equal.
  - revert old Eo HT. induction (up_old w) as [|[c v] l IH]; intros [|[n o] old] E HT; try discriminate; [reflexivity|]. cbn [map fst snd] in *. inversion HT as [|? ? T1 T2]; subst. injection E as E1 E2 E3.
    rewrite (IH old E3 T2), E1. do 2 f_equal. rewrite <- E2. now destruct o.
  - revert key Ek. induction (up_key w) as [|[c v] l IH]; intros [|[n o] key] E; try discriminate; [reflexivity|]. cbn [map fst snd] in *. injection E as E1 E2 E3.
    now rewrite (IH key E3), E1, <- E2.
Qed.
Lemma verbatim_exact w : Forall (fun cv => textual (snd cv)) (up_old w) -> Forall (fun cv => exists s, snd cv = SStr s) (up_key w) -> (restores w (verbatim w) <-> plain_update w).
Proof.
  intros HT HK. unfold verbatim, restores. rewrite undo_is_text, !map_map. cbn [fst snd].
  assert (Ek : map (fun cv : column_def * sqlval => (cd_name (fst cv), SStr match snd cv with SStr s => s | _ => [] end)) (up_key w) = map (fun cv => (cd_name (fst cv), snd cv)) (up_key w)).
  { apply map_ext_in. intros cv Hi. rewrite Forall_forall in HK. destruct (HK cv Hi) as [s ->]. reflexivity. }
  assert (Eo : map (fun cv : column_def * sqlval => (cd_name (fst cv), shown_value (text_in (snd cv)))) (up_old w) = map (fun cv => (cd_name (fst cv), snd cv)) (up_old w)).
  { apply map_ext_in. intros cv Hi. rewrite Forall_forall in HT. specialize (HT cv Hi). destruct (snd cv); try contradiction; reflexivity. }
  rewrite Ek, Eo. clear Ek Eo.
  replace (map (fun cv : column_def * sqlval => (cd_name (fst cv), snd cv, [])) (up_old w)) with (map (fun i : item => (fst i, snd i, @nil (list Z * sqlval))) (map (fun cv => (cd_name (fst cv), snd cv)) (up_old w))) by (rewrite map_map; reflexivity).
  etransitivity; [apply update_exact|].
  - apply Forall_map. revert HT. apply Forall_impl. intros [c v] H. exact H.
  - apply Forall_map. revert HK. apply Forall_impl. intros [c v] [s H]. unfold writable. cbn in *. now rewrite H.
  - unfold plain_update, zlen. rewrite map_length, Forall_app, !Forall_map. unfold clean_item, quotable. cbn [fst snd].
    assert (N : map (fun cv : column_def * sqlval => (cd_name (fst cv), snd cv)) (up_key w) <> [] <-> up_key w <> []) by (destruct (up_key w); cbn; split; congruence).
    assert (C1 : Forall (fun cv : column_def * sqlval => ~ In 96 (cd_name (fst cv)) /\ match snd cv with SNull => True | SStr s => literal s = true | _ => False end) (up_old w)
      <-> Forall (fun cv => ~ In 96 (cd_name (fst cv)) /\ match snd cv with SStr s => literal s = true | _ => True end) (up_old w)).
    { clear - HT. induction HT as [|cv l H _ IH]; [split; constructor|]. rewrite !Forall_cons_iff, IH. destruct (snd cv); cbn in H; tauto. }
    assert (C2 : Forall (fun cv : column_def * sqlval => ~ In 96 (cd_name (fst cv)) /\ match snd cv with SNull => True | SStr s => literal s = true | _ => False end) (up_key w)
      <-> Forall (fun cv => ~ In 96 (cd_name (fst cv)) /\ match snd cv with SStr s => literal s = true | _ => True end) (up_key w)).
    { clear - HK. induction HK as [|cv l [s H] _ IH]; [split; constructor|]. rewrite !Forall_cons_iff, IH, H. tauto. }
    unfold bytes in *. rewrite N, C1, C2. assert (L : List.length (up_old w) = 1%nat <-> Z.of_nat (List.length (up_old w)) = 1) by lia. rewrite L. tauto.
Qed.
Lemma verbatim_restores w : Forall (fun cv => textual (snd cv)) (up_old w) -> Forall (fun cv => exists s, snd cv = SStr s) (up_key w) -> plain_update w -> restores w (verbatim w).
Proof. intros HT HK. now apply verbatim_exact. Qed.
Lemma log_shown rt pages d tm want_db want_tb (ok : undo -> update -> Prop) after es ws : stores_dictionary pages d -> consistent d -> represents (dd_tables d) (placed d) tm ->
  (forall u w, ok u w -> shown_update d u w) -> log_says rt d want_db want_tb ok after es ws ->
  log_lines rt tm want_db want_tb after es (map verbatim ws).
Proof.
  intros Hs Hc HR Hok. pose proof (placed_agrees d tm Hc HR) as [_ [Hids _]].
  induction 1 as [|es l _ IH|lsn es l Hl _ IH|single space page b es l W1 W2 Hb Ho Hr _ IH|single space page u es l W1 W2 Hu Hn _ IH
    |single space page u w es l W1 W2 Hu H5 HM Hw Hp Hd _ IH|single space page u w es l W1 W2 Hu H5 HM Hw Hp HT Hq _ IH].
  1-4: now constructor.
  - apply (ll_undo rt tm want_db want_tb after single space page u es []); try assumption.
    apply ul_foreign. apply mget_none. now rewrite Hids.
  - apply (ll_undo rt tm want_db want_tb after single space page u es []); try assumption.
    destruct (undo_shown rt pages d tm u w _ Hs Hc HR Hu HM Hw (Hok _ _ Hp)) as [e [key [G [E1 [E2 [K1 [K2 [_ KO]]]]]]]].
    destruct (Z.eq_dec (un_type u) UNDO_UPDATE) as [HT|HT]; [|now apply (ul_other rt tm want_db want_tb _ u e (map cd_name (map fst (up_key w))) key [])].
    destruct (KO HT) as [old [O1 _]]. apply (ul_unwanted rt tm want_db want_tb _ u e (map cd_name (map fst (up_key w))) key old [] []); try assumption. rewrite E1, E2. tauto.
  - pose proof (Hok _ _ Hp) as Hp'. destruct (undo_shown rt pages d tm u w _ Hs Hc HR Hu HM Hw Hp') as [e [key [G [E1 [E2 [K1 [K2 [K3 KO]]]]]]]].
    destruct (KO HT) as [old [O1 O2]]. change (map verbatim (w :: l)) with ([verbatim w] ++ map verbatim l).
    rewrite <- (line_verbatim w old key) by (assumption || apply Hp'). rewrite <- E1, <- E2.
    apply ll_undo; try assumption. apply (ul_update rt tm want_db want_tb _ u e (map cd_name (map fst (up_key w))) key old [] []); try assumption. now rewrite E1, E2.
Qed.
Lemma filters_agree d tm want_db want_tb : consistent d -> represents (dd_tables d) (placed d) tm ->
  (forall t db tb, In t (dd_tables d) -> named_as (td_name t) db tb -> want_db = [] \/ want_tb = [] \/ want_db = db \/ want_tb <> tb) ->
  forall k e, mget tm k = Some e -> want_db = [] \/ want_tb = [] \/ want_db = t_db e \/ want_tb <> t_name e.
Proof.
  intros Hc HR H k e Hg. pose proof (placed_agrees d tm Hc HR) as [Hk [Hids HA]].
  assert (Hi : In k (map td_id (dd_tables d))) by (apply Hids; apply mget_in in Hg; now apply (in_map fst) in Hg).
  apply in_map_iff in Hi as [t [<- Ht]]. destruct (HA t Ht) as [e' [Hg' [Hn _]]]. rewrite Hg in Hg'. injection Hg' as <-. exact (H t _ _ Ht Hn).
Qed.
