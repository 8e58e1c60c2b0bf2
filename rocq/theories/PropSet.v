(** C111: which column a recovered UPDATE sets. *)
From Coq Require Import String ZifyBool.
From Verif Require Import GoBase Utils Ibdata Redo Cmd SpecInno SpecText SpecSql SpecRecord SpecRow SpecPage SpecDict SpecTool SpecRedo SpecUndo SpecToolRedo SpecCmd
  PBase PWire PValue PText PRec PPage PSql PFile PDict PMove PUndo PLog PBuild PTool PToolRedo PSaid POrdered PropDict PropCmd PropRedo PropTool PropToolRedo PropPair.
Local Open Scope string_scope.
Local Open Scope list_scope.
Local Open Scope Z_scope.
Ltac Zify.zify_post_hook ::= Z.div_mod_to_equations.

(** Whether a column has the name of a key column; the key's columns stand in
    the table in the order of the key, whatever is before and between them. *)
Definition of_names (key : list column_def) (c : column_def) : bool := existsb (fun k => if list_eq_dec Z.eq_dec (cd_name k) (cd_name c) then true else false) key.
Definition in_order (cols key : list column_def) : Prop := filter (of_names key) cols = key.
(** Keys of which nothing is lost: those in table order, and those in any order
    behind the first columns, as many as the key has. *)
Definition kept (cols key : list column_def) : Prop := in_order cols key \/ (forall k, In k key -> exists j, nth_error cols j = Some k /\ (List.length key <= j)%nat).
(** The column taken for c: as many places further on as there are key columns
    behind c. *)
Definition keys_behind (cols key : list column_def) (j : nat) : nat := List.length (filter (of_names key) (skipn j cols)).
Definition taken_for (cols key : list column_def) (c c' : column_def) : Prop :=
  exists j, nth_error cols j = Some c /\ ~ In (cd_name c) (map cd_name key) /\ nth_error cols (j + keys_behind cols key j) = Some c'.
Definition behind (cols key : list column_def) (c : column_def) : Prop :=
  exists a b, cols = a ++ c :: b /\ forall k, In k key -> ~ In (cd_name k) (map cd_name (c :: b)).
(** Updates of tables with such a key; changed columns before some of
    it have the type of the column they are taken for. *)
Definition kept_update (d : dictionary) (u : undo) (w : update) : Prop :=
  Forall (fun cv => textual (snd cv) /\ mysql_type (fst cv) <> 12) (up_key w)
  /\ Forall (fun cv => textual (snd cv)) (up_old w)
  /\ kept (columns_of d (un_table u)) (map fst (up_key w))
  /\ (forall c c', In c (map fst (up_old w)) -> taken_for (columns_of d (un_table u)) (map fst (up_key w)) c c' -> alike c c')
  /\ Forall (fun i => tight (id_name i) /\ Forall (fun b => 0 <= b < 256) (id_name i)) (indexes_of d (un_table u))
  /\ (un_type u = UNDO_UPDATE -> Forall (fun f => zlen (up_key w) <= fst f) (un_changes u)).
(** The columns and the key of an update's table, and the update that is printed. *)
Definition table_of (d : dictionary) (w : update) (cols key : list column_def) : Prop :=
  exists t rest, In t (dd_tables d) /\ named_as (td_name t) (up_db w) (up_tb w) /\ cols = columns_of d (td_id t) /\ has_key d (td_id t) key rest /\ key = map fst (up_key w).
Definition renamed (cols key : list column_def) (w w' : update) : Prop :=
  up_db w' = up_db w /\ up_tb w' = up_tb w /\ up_key w' = up_key w
  /\ Forall2 (fun cv cv' => taken_for cols key (fst cv) (fst cv') /\ snd cv' = snd cv) (up_old w) (up_old w').

Lemma of_names_in key c : of_names key c = true <-> In (cd_name c) (map cd_name key).
Proof.
  unfold of_names. rewrite existsb_exists, in_map_iff. split; intros [k [A B]]; exists k.
  - destruct (list_eq_dec Z.eq_dec (cd_name k) (cd_name c)); [now split|discriminate].
  - split; [exact B|]. rewrite A. now destruct (list_eq_dec Z.eq_dec (cd_name c) (cd_name c)).
Qed.
Lemma pick {A} (p : A -> bool) l : forall m c, nth_error (filter (fun x => negb (p x)) l) m = Some c ->
  exists j, nth_error l j = Some c /\ p c = false /\ (m + List.length (filter p l) = j + List.length (filter p (skipn j l)))%nat.
Proof.
  induction l as [|x l IH]; intros m c H; [destruct m; discriminate H|]. cbn [filter] in *. destruct (p x) eqn:E; cbn [negb] in H.
  - destruct (IH m c H) as [j [J1 [J2 J3]]]. exists (S j). cbn [nth_error skipn List.length]. repeat split; try assumption. lia.
  - destruct m as [|m]; [injection H as <-; exists 0%nat; cbn [nth_error skipn filter]; now rewrite E|]. destruct (IH m c H) as [j [J1 [J2 J3]]]. exists (S j). cbn [nth_error skipn]. repeat split; try assumption. lia.
Qed.
Lemma split_length {A} (p : A -> bool) l : (List.length (filter p l) + List.length (filter (fun x => negb (p x)) l) = List.length l)%nat.
Proof. induction l as [|x l IH]; [reflexivity|]. cbn [filter]. destruct (p x); cbn [negb List.length]; lia. Qed.
Lemma placed_ordered d t e key rest : consistent d -> placed d t e -> has_key d (td_id t) key rest -> in_order (columns_of d (td_id t)) key ->
  t_columns e = map descriptor (rev key) ++ [internal_column (td_id t) "DB_TRX_ID" (zlen key) 6; internal_column (td_id t) "DB_ROLL_PTR" (zlen key + 1) 7]
    ++ map descriptor (skipn (List.length key) (columns_of d (td_id t))).
Proof.
  intros Hc HP Hk HO. destruct (placed_moved2 d t e key rest Hc HP Hk) as [fields [r [EF [Er Ec]]]].
  assert (Hd : NoDup (map fd_name fields)).
  { rewrite EF. destruct Hk as [i [Hi [Hp [Hk _]]]]. apply in_indexes in Hi as [Hi _]. pose proof Hc as [_ [_ [_ [_ [_ [_ Hkey]]]]]]. destruct (Hkey i Hi Hp) as [K1 _]. now rewrite Hk. }
  assert (Hq : filter (of_key fields) (map descriptor (columns_of d (td_id t))) = map descriptor key).
  { transitivity (map descriptor (filter (of_names key) (columns_of d (td_id t)))); [|exact (f_equal (map descriptor) HO)]. clear - EF. assert (Q : forall c, of_key fields (descriptor c) = of_names key c).
    { intro c. apply eq_true_iff_eq. rewrite of_key_in, of_names_in, EF. reflexivity. }
    induction (columns_of d (td_id t)) as [|c l IH]; [reflexivity|]. cbn [map filter]. rewrite Q. destruct (of_names key c); cbn [map]; now rewrite IH. }
  assert (Lf : List.length fields = List.length key) by (rewrite <- (map_length fd_name), EF; apply map_length).
  rewrite (move_ordered fields _ Hd) in Er by (rewrite Hq, map_map, EF; reflexivity). rewrite Hq, Lf in Er.
  assert (Q : r = map descriptor (rev key) ++ map descriptor (skipn (List.length key) (columns_of d (td_id t)))).
  { rewrite map_rev. assert (X : forall (l : list column_def) n, skipn n (map descriptor l) = map descriptor (skipn n l)) by (induction l as [|x l IH]; intros [|n]; try reflexivity; exact (IH n)). rewrite <- X. congruence. }
  rewrite Ec, Q. assert (Lr : List.length key = List.length (map descriptor (rev key))) by (now rewrite map_length, rev_length).
  rewrite Lr at 1. rewrite firstn_app, firstn_all, Nat.sub_diag. cbn [firstn]. rewrite app_nil_r. f_equal. f_equal. rewrite Lr at 1. rewrite skipn_app, skipn_all, Nat.sub_diag. reflexivity.
Qed.
Lemma named_any c : forall l, (forall x, In x l -> c_name x = c_name c -> x = c) -> In c l -> column_named (c_name c) l c.
Proof.
  induction l as [|x l IH]; intros H Hi; [contradiction|]. destruct (list_eq_dec Z.eq_dec (c_name x) (c_name c)) as [E|N].
  - rewrite (H x (or_introl eq_refl) E). now constructor.
  - apply cn_next; [congruence|]. apply IH; [intros y Hy; apply H; now right|]. destruct Hi as [->|Hi]; [contradiction|exact Hi].
Qed.
Lemma placed_kept d t e key rest : consistent d -> placed d t e -> has_key d (td_id t) key rest -> kept (columns_of d (td_id t)) key ->
  exists fr, List.length fr = List.length key
  /\ t_columns e = map descriptor fr ++ [internal_column (td_id t) "DB_TRX_ID" (zlen key) 6; internal_column (td_id t) "DB_ROLL_PTR" (zlen key + 1) 7]
      ++ map descriptor (skipn (List.length key) (columns_of d (td_id t)))
  /\ incl fr (columns_of d (td_id t)) /\ incl key (fr ++ skipn (List.length key) (columns_of d (td_id t))).
Proof.
  intros Hc HP Hk HO. pose proof Hk as [i [_ [_ [_ [Hin _]]]]]. destruct HO as [HO|HO].
  - exists (rev key). split; [apply rev_length|]. split; [exact (placed_ordered d t e key rest Hc HP Hk HO)|]. split; intros k Hi; [apply Hin; now apply in_rev|].
    apply in_or_app. left. now apply in_rev in Hi.
  - destruct (placed_moved2 d t e key rest Hc HP Hk) as [fields [r [EF [Er Ec]]]]. set (cols := columns_of d (td_id t)) in *.
    assert (Lf : List.length fields = List.length key) by (rewrite <- (map_length fd_name), EF; apply map_length).
    assert (Ll : (List.length fields <= List.length (map descriptor cols))%nat).
    { rewrite Lf, map_length. apply NoDup_incl_length; [|exact Hin]. pose proof Hk as [x [Hi [Hp [Hk' _]]]]. apply in_indexes in Hi as [Hi _]. pose proof Hc as [_ [_ [_ [_ [_ [_ Hkey]]]]]]. destruct (Hkey x Hi Hp) as [K1 _].
      rewrite <- Hk' in K1. now apply NoDup_map_inv in K1. }
    destruct (move_any fields _ Ll) as [r' [Er' [ES [EI EL]]]]. rewrite Er in Er'. injection Er' as <-. rewrite Lf in ES.
    assert (X : forall (l : list column_def) n, skipn n (map descriptor l) = map descriptor (skipn n l)) by (induction l as [|x l IH]; intros [|n]; try reflexivity; exact (IH n)).
    assert (XI : forall l, incl l (map descriptor cols) -> exists l', l = map descriptor l' /\ incl l' cols).
    { induction l as [|x l IH]; intro Hl; [exists []; split; [reflexivity|intros ? []]|]. destruct IH as [l' [-> Hl']]; [intros y Hy; apply Hl; now right|]. destruct (proj1 (in_map_iff _ _ _) (Hl x (or_introl eq_refl))) as [c [<- Hcc]].
      exists (c :: l'). split; [reflexivity|]. intros y [<-|Hy]; [exact Hcc|now apply Hl']. }
    destruct (XI (firstn (List.length key) r)) as [fr [EF' IF']]; [intros y Hy; apply EI; rewrite <- (firstn_skipn (List.length key) r); apply in_or_app; now left|].
    exists fr. split; [|split; [|split; [exact IF'|]]].
    + rewrite <- (map_length descriptor fr), <- EF', firstn_length, EL. rewrite Lf in Ll. lia.
    + now rewrite Ec, EF', ES, X.
    + intros k Hi. destruct (HO k Hi) as [j [Hj Lj]]. apply in_or_app. right. apply (nth_error_In _ (j - List.length key)). rewrite nth_skipn. now replace (List.length key + (j - List.length key))%nat with j by lia.
Qed.
Lemma kept_found d t e key rest k : consistent d -> placed d t e -> has_key d (td_id t) key rest -> kept (columns_of d (td_id t)) key ->
  In k key -> SpecTool.ordinary k -> column_named (cd_name k) (t_columns e) (descriptor k).
Proof.
  intros Hc HP Hk HO Hi Ho. destruct (placed_kept d t e key rest Hc HP Hk HO) as [fr [_ [Ec [If Ik]]]]. rewrite Ec. pose proof Hk as [i [_ [_ [_ [Hin _]]]]].
  apply (named_any (descriptor k)).
  - intros x Hx E. assert (Y : forall c, In c (columns_of d (td_id t)) -> cd_name c = cd_name k -> c = k).
    { intros c Hcc En. pose proof Hc as [_ [_ [_ [_ [_ [Hnd _]]]]]]. specialize (Hnd (td_id t)). apply In_nth_error in Hcc as [p1 N1]. pose proof (Hin k Hi) as Hkk. apply In_nth_error in Hkk as [p2 N2].
      pose proof (nodup_at cd_name _ _ _ _ _ Hnd N1 N2 En). congruence. }
    rewrite !in_app_iff in Hx. destruct Hx as [Hx|[Hx|Hx]].
    + apply in_map_iff in Hx as [c [<- Hcc]]. now rewrite (Y c (If c Hcc) E).
    + exfalso. cbn [In] in Hx. destruct Hx as [<-|[<-|[]]]; apply Ho; cbn [In]; [right; left|right; right; left]; exact E.
    + apply in_map_iff in Hx as [c [<- Hcc]]. rewrite (Y c); [reflexivity| |exact E]. rewrite <- (firstn_skipn (List.length key)). apply in_or_app. now right.
  - pose proof (Ik k Hi) as Hkk. rewrite !in_app_iff in *. destruct Hkk as [Hkk|Hkk]; [left|right; right]; now apply in_map.
Qed.
(** Full statement: no key column is lost.  Proved: none is if the columns of
    the key, however many, stand in the table in the key's order, or in any
    order behind as many columns as the key has. *)
Theorem C110_kept_partial : forall fuel rt pages d t key rest, stores_dictionary pages d -> consistent d -> (Z.to_nat 16384 < fuel)%nat ->
  In t (dd_tables d) -> has_key d (td_id t) key rest -> Forall SpecTool.ordinary key -> kept (columns_of d (td_id t)) key ->
  exists tm e, ParseDictPage fuel rt (Some (map IoBytes pages)) = ([], Ok (tm, None)) /\ mget tm (td_id t) = Some e
    /\ forall k, In k key -> column_named (cd_name k) (t_columns e) (descriptor k).
Proof.
  intros fuel rt pages d t key rest Hs Hc Hf Ht Hk Ho HO. destruct (dict_read fuel rt pages d Hs Hc Hf) as [tm [E HR]].
  destruct (represents_in d _ tm t Hc HR Ht) as [e [Hg HP]]. exists tm, e. split; [exact E|]. split; [exact Hg|]. intros k Hin.
  rewrite Forall_forall in Ho. exact (kept_found d t e key rest k Hc HP Hk HO Hin (Ho k Hin)).
Qed.
Print Assumptions C110_kept_partial.

Lemma kept_said rt pages d tm : stores_dictionary pages d -> consistent d -> represents (dd_tables d) (placed d) tm -> said_as rt tm (fun w w' => exists cols key, table_of d w cols key /\ renamed cols key w w') (kept_update d) d.
Proof.
  intros Hs Hc HR u w m Hok HM [t [rest [Ht [Hid [Hnm [Hk [HK [HO HU]]]]]]]] [P1 [P2 [HE [HA [P4 P5]]]]].
  rewrite Hid in HE, HA, P4 |- *. destruct (represents_in d _ tm t Hc HR Ht) as [e [Hg HP]].
  pose proof (placed_agrees d tm Hc HR) as [_ [_ HAg]]. destruct (HAg t Ht) as [e' [Hg' [Hn' [_ [_ Hx]]]]]. rewrite Hg in Hg'. injection Hg' as <-.
  destruct (named_unique _ _ _ _ _ Hnm Hn') as [Ed Et]. set (key := map fst (up_key w)) in *. set (cols := columns_of d (td_id t)) in *.
  destruct (placed_kept d t e key rest Hc HP Hk HE) as [fr [Lfr [Ec [Ifr _]]]]. fold cols in Ec.
  pose proof (column_lengths pages d Hs) as Hlen. rewrite Forall_forall in Hlen, HO.
  assert (Hcol : forall c, In c cols -> readable_column c /\ 0 <= cd_len c < 2 ^ 32).
  { intros c Hi. split; [apply (HO c Hi)|]. apply Hlen. unfold cols, columns_of in Hi. apply filter_In in Hi. tauto. }
  assert (Hkd : NoDup (map cd_name key)).
  { pose proof Hk as [i [Hi [Hp [Hk' _]]]]. apply in_indexes in Hi as [Hi _]. pose proof Hc as [_ [_ [_ [_ [_ [_ Hkey]]]]]]. destruct (Hkey i Hi Hp) as [K1 _]. now rewrite Hk'. }
  assert (Hki : incl key cols) by (destruct Hk as [i [_ [_ [_ [X _]]]]]; exact X).
  destruct (keys_shown rt e (up_key w) (un_keys u) HK) as [shown [S1 S2]].
  { apply Forall_forall. intros cv Hi. rewrite Forall_forall in P1. destruct (P1 cv Hi) as [Q1 Q2]. split; [exact Q1|]. split; [exact Q2|].
    assert (Hin : In (fst cv) key) by (unfold key; now apply in_map). destruct (Hcol (fst cv) (Hki _ Hin)) as [C1 C2]. split; [exact C1|]. split; [exact C2|].
    apply (kept_found d t e key rest (fst cv) Hc HP Hk HE Hin). apply (HO (fst cv) (Hki _ Hin)). }
  destruct (Z.eq_dec (un_type u) UNDO_UPDATE) as [HT|HT].
  2:{ exists w, e, shown. split; [intro; contradiction|]. do 3 (split; [congruence|]). do 2 (split; [reflexivity|]). split; [exact (key_is d t e key rest Hc Hk Hx P4)|]. split; [exact S1|].
      split; [exact S2|]. split; [exact P2|]. intro; contradiction. }
  specialize (P5 HT). set (ss' := key_slots key (skipn (List.length key) cols)).
  assert (Hrest : rest = filter (fun c => negb (of_names key c)) cols) by (destruct Hk as [i [_ [_ [_ [_ X]]]]]; exact X).
  assert (HLen : List.length (filter (of_names key) cols) = List.length key).
  { destruct HE as [HE|_]; [now rewrite HE|]. pose proof Hc as [_ [_ [_ [_ [_ [Hnd _]]]]]]. specialize (Hnd (td_id t)). fold cols in Hnd. clear - Hkd Hki Hnd.
    assert (D1 : NoDup (filter (of_names key) cols)) by (apply NoDup_filter; now apply NoDup_map_inv in Hnd). apply NoDup_map_inv in Hkd as D2.
    apply Nat.le_antisymm; apply NoDup_incl_length; try assumption; intros c Hi.
    - apply filter_In in Hi as [H1 H2]. apply of_names_in, in_map_iff in H2 as [k [E H3]]. apply In_nth_error in H1 as [p1 N1]. pose proof (Hki k H3) as H4. apply In_nth_error in H4 as [p2 N2].
      pose proof (nodup_at cd_name _ _ _ _ _ Hnd N1 N2 (eq_sym E)). congruence.
    - apply filter_In. split; [now apply Hki|]. apply of_names_in. now apply in_map. }
  assert (HX : exists old', Forall2 (fun cv cv' => taken_for cols key (fst cv) (fst cv') /\ snd cv' = snd cv /\ mysql_type (fst cv') = mysql_type (fst cv)) (up_old w) old' /\ Forall2 (old_of rt ss') old' (un_changes u)).
  { specialize (HU HT). assert (P5' : Forall (fun f => Z.of_nat (List.length key) <= fst f) (un_changes u)) by (unfold zlen in P5; unfold key; now rewrite map_length).
    clear - HU HA HLen P5' Hok Hrest. destruct Hok as [_ [_ [_ [_ [_ [_ [_ [_ [_ [Hf _]]]]]]]]]].
    assert (G : forall cvs fs, Forall2 (old_of rt (key_slots key rest)) cvs fs -> incl cvs (up_old w) -> Forall field_ok fs -> Forall (fun f => Z.of_nat (List.length key) <= fst f) fs ->
      exists old', Forall2 (fun cv cv' => taken_for cols key (fst cv) (fst cv') /\ snd cv' = snd cv /\ mysql_type (fst cv') = mysql_type (fst cv)) cvs old' /\ Forall2 (old_of rt ss') old' fs).
    { induction 1 as [|[c v] [p ob] cvs fs [Hn He] _ IH]; intros Hi F1 F2; [exists []; split; constructor|]. inversion F1 as [|? ? F3 F4]; subst. inversion F2 as [|? ? F5 F6]; subst.
      destruct IH as [old' [I1 I2]]; [intros z Hz; apply Hi; now right|exact F4|exact F6|]. cbn [fst snd] in *.
      unfold key_slots in Hn. rewrite nth_error_app2 in Hn by (rewrite map_length; lia). rewrite map_length in Hn.
      destruct (Z.to_nat p - List.length key)%nat as [|[|q]] eqn:Ep; cbn [app nth_error] in Hn; [discriminate Hn|discriminate Hn|]. rewrite nth_error_map in Hn.
      destruct (nth_error (filter (fun c => negb (of_names key c)) cols) q) as [c0|] eqn:En; [|discriminate Hn]. injection Hn as ->.
      assert (Hc' : exists c', nth_error (skipn (List.length key) cols) q = Some c' /\ taken_for cols key c c').
      { destruct (pick (of_names key) cols q c En) as [j [J1 [J2 J3]]]. rewrite HLen in J3.
        assert (Lq : (q < List.length (filter (fun c => negb (of_names key c)) cols))%nat) by (apply nth_error_Some; congruence).
        pose proof (split_length (of_names key) cols) as SL. rewrite HLen in SL. rewrite nth_skipn.
        assert (Lc : (List.length key + q < List.length cols)%nat) by lia. apply nth_error_Some in Lc. destruct (nth_error cols (List.length key + q)) as [c'|] eqn:Ec'; [|contradiction].
        exists c'. split; [reflexivity|]. exists j. split; [exact J1|]. split; [rewrite <- of_names_in; congruence|]. unfold keys_behind. rewrite <- J3, Nat.add_comm. exact Ec'. }
      destruct Hc' as [c' [Ec' Htk]]. assert (Ha : alike c c').
      { apply (HA c c'); [|exact Htk]. change c with (fst (c, v)). apply in_map. apply Hi. now left. }
      exists ((c', v) :: old'). split.
      - constructor; [|exact I1]. cbn [fst snd]. split; [exact Htk|]. split; [reflexivity|]. destruct Ha as [_ [A2 _]]. unfold mysql_type. now rewrite A2.
      - constructor; [|exact I2]. split; cbn [fst snd].
        + unfold ss', key_slots. rewrite nth_error_app2 by (rewrite map_length; lia). rewrite map_length, Ep. cbn [app nth_error]. now rewrite nth_error_map, Ec'.
        + now apply (encodes_alike rt c). }
    apply (G _ _ HU); [apply incl_refl|exact Hf|exact P5']. }
  destruct HX as [old' [HX1 HX2]].
  assert (HT' : Forall (fun cv => textual (snd cv)) old').
  { clear - HX1 P2. induction HX1 as [|cv cv' l l' [_ [E _]] _ IH]; [constructor|]. inversion P2; subst. constructor; [now rewrite E|now apply IH]. }
  assert (HM' : Forall (fun cv => mysql_type (fst cv) = 12 -> 3 <= m) old').
  { unfold datetime_room in HM. clear - HX1 HM. induction HX1 as [|cv cv' l l' [_ [_ E]] _ IH]; [constructor|]. inversion HM; subst. constructor; [now rewrite E|now apply IH]. }
  exists (mkUpdate (up_db w) (up_tb w) old' (up_key w)), e, shown. cbn [up_db up_tb up_old up_key].
  split; [|split; [exact Hg|split; [now symmetry|split; [now symmetry|split; [reflexivity|split; [reflexivity|split; [exact (key_is d t e key rest Hc Hk Hx P4)|split; [exact S1|split; [exact S2|split; [exact HT'|]]]]]]]]]].
  - intros _. exists cols, key. split; [exists t, rest; repeat (split; [assumption || reflexivity|]); reflexivity|].
    do 3 (split; [reflexivity|]). clear - HX1. cbn [up_old]. induction HX1 as [|? ? ? ? [A [B _]] _ IH]; constructor; [split; assumption|exact IH].
  - intros _. apply (olds_shown rt e ss' m old' (un_changes u) HX2 HM' HT').
    + intros cv _ Hi. apply Hcol. unfold users, ss', key_slots in Hi. apply in_flat_map in Hi as [s [Hi1 Hi2]]. destruct s as [n|c]; [contradiction|]. destruct Hi2 as [<-|[]].
      apply in_app_or in Hi1 as [X|[X|[X|X]]]; try discriminate X; apply in_map_iff in X as [c' [X1 X2]]; injection X1 as ->; [now apply Hki|].
      rewrite <- (firstn_skipn (List.length key) cols). apply in_or_app. now right.
    + destruct Hok as [_ [_ [_ [_ [_ [_ [_ [_ [_ [Hf _]]]]]]]]]]. rewrite Forall_forall in Hf, P5. apply Forall_forall. intros f Hi c Hn. rewrite Ec. destruct (Hf f Hi) as [Hf1 _]. specialize (P5 f Hi).
      assert (Hl : zlen (up_key w) = Z.of_nat (List.length key)) by (unfold zlen, key; now rewrite map_length).
      apply (slot_past key _ _ c Hn); [lia|]. now rewrite map_length.
Qed.
Lemma taken_same cols key c c' : NoDup (map cd_name cols) -> incl key cols -> taken_for cols key c c' -> (cd_name c' = cd_name c <-> behind cols key c) /\ (cd_name c' = cd_name c -> c' = c).
Proof.
  intros Hd Hi [j [Hj [Hn Hc']]]. assert (X : cd_name c' = cd_name c -> keys_behind cols key j = 0%nat) by (intro E; pose proof (nodup_at cd_name cols _ _ _ _ Hd Hc' Hj E); lia).
  split.
  - split.
    + intro E. destruct (nth_error_split _ _ Hj) as [a [b [E1 E2]]]. exists a, b. split; [exact E1|]. intros k Hk Hin. specialize (X E). unfold keys_behind in X. apply length_zero_iff_nil in X.
      rewrite E1, skipn_app, <- E2, skipn_all, Nat.sub_diag in X. cbn [app skipn] in X. apply in_map_iff in Hin as [y [Ey Hy]].
      assert (Z : In y (filter (of_names key) (c :: b))) by (apply filter_In; split; [exact Hy|]; apply of_names_in; rewrite Ey; now apply in_map). rewrite X in Z. exact Z.
    + intros [a [b [E1 E2]]]. assert (Ej : j = List.length a).
      { apply (nodup_at cd_name cols _ _ c c Hd Hj); [|reflexivity]. rewrite E1, nth_error_app2, Nat.sub_diag by lia. reflexivity. }
      assert (K0 : keys_behind cols key j = 0%nat).
      { unfold keys_behind. rewrite E1, Ej, skipn_app, skipn_all, Nat.sub_diag. cbn [app]. change (skipn 0 (c :: b)) with (c :: b). rewrite filter_none; [reflexivity|]. intros y Hy. apply not_true_iff_false. rewrite of_names_in.
        intro Hm. apply in_map_iff in Hm as [k [Ek Hk]]. apply (E2 k Hk). rewrite Ek. now apply in_map. }
      rewrite K0, Nat.add_0_r, Hj in Hc'. now injection Hc' as ->.
  - intro E. rewrite (X E), Nat.add_0_r, Hj in Hc'. now injection Hc' as ->.
Qed.
(** The statement of every update of a table with such a key sets,
    in place of each changed column, the one as many places further on as there
    are key columns behind it; so it is right exactly if all changed columns
    lie behind the whole key. *)
Theorem C111_set_refuted : forall fuel rt files sys opt parts want_db want_tb spare d sys_pages fs ws,
  redo_input rt (kept_update d) d sys_pages want_db want_tb fs ws ->
  files sys = Some (map IoBytes sys_pages) -> parts_of opt parts -> map files parts = map (fun f => Some (log_events f)) fs ->
  (Z.to_nat 16384 < fuel)%nat ->
  exists lines, FromRedoFile fuel rt files sys opt want_db want_tb spare = (lines, Ok tt)
    /\ Forall2 (fun w line => exists cols key w', table_of d w cols key /\ renamed cols key w w' /\ line = verbatim w'
         /\ (plain_update w' -> restores w' line /\ (restores w line <-> Forall (fun cv => behind cols key (fst cv)) (up_old w)))) ws lines.
Proof.
  intros fuel rt files sys opt parts want_db want_tb spare d sys_pages fs ws HI F1 Hp F2 Hfuel. pose proof HI as [Hs [Hc _]].
  destruct (command_said fuel rt files sys opt parts want_db want_tb spare d sys_pages fs ws (kept_update d) _ HI (fun tm HR => kept_said rt sys_pages d tm Hs Hc HR) F1 Hp F2 Hfuel) as [ws' [H1 H2]].
  exists (map verbatim ws'). split; [exact H2|]. destruct HI as [_ [_ [_ [_ [es [tail [_ [_ [_ HS]]]]]]]]].
  assert (HW : Forall (fun w => Forall (fun cv => textual (snd cv)) (up_old w) /\ Forall (fun cv => exists s, snd cv = SStr s) (up_key w)) ws).
  { clear - HS. induction HS as [| | | | | |single space page u w es l W1 W2 Hu H5 HM Hw Hp1 HT Hq _ IH]; try assumption; [constructor|]. constructor; [|exact IH]. split; [apply Hp1|].
    destruct Hw as [t [rest [_ [_ [_ [_ [HK _]]]]]]]. destruct Hp1 as [Hp1 _]. clear - HK Hp1.
    induction HK as [|[c v] k cvs ks He _ IH]; constructor; inversion Hp1 as [|? ? [T1 _] T2]; subst; [|now apply IH]. cbn [fst snd] in *.
    destruct v as [|s|b|n]; try contradiction; [inversion He|]. now exists s. }
  clear - H1 HW Hc. induction H1 as [|w w' ws ws' [cols [key [HTb HRn]]] _ IH]; cbn [map]; [constructor|]. inversion HW as [|? ? [W1 W2] W3]; subst. constructor; [|exact (IH W3)].
  exists cols, key, w'. split; [exact HTb|]. split; [exact HRn|]. split; [reflexivity|]. intro HP. destruct HRn as [R1 [R2 [R3 R4]]].
  assert (HR' : restores w' (verbatim w')).
  { apply verbatim_restores; [|now rewrite R3|exact HP]. clear - R4 W1. induction R4 as [|cv cv' l l' [_ E] _ IH]; [constructor|]. inversion W1; subst. constructor; [now rewrite E|now apply IH]. }
  split; [exact HR'|]. unfold restores in *. rewrite HR', R1, R2, R3.
  assert (Hd : NoDup (map cd_name cols)) by (destruct HTb as [t [rest [_ [_ [-> _]]]]]; apply Hc).
  assert (Hi : incl key cols) by (destruct HTb as [t [rest [_ [_ [-> [[i [_ [_ [_ [X _]]]]] _]]]]]]; exact X).
  assert (X : forall c c', taken_for cols key c c' -> (cd_name c' = cd_name c <-> behind cols key c)) by (intros c c' T; now apply taken_same).
  split.
  - intro E. assert (E2 : map (fun cv : column_def * sqlval => (cd_name (fst cv), snd cv, @nil (list Z * sqlval))) (up_old w') = map (fun cv => (cd_name (fst cv), snd cv, [])) (up_old w)) by congruence. clear - E2 R4 X.
    induction R4 as [|[c v] [c' v'] l l' [Ht Ev] _ IH]; [constructor|]. cbn [map fst snd] in *. injection E2 as E3 E4 E5. constructor; [|now apply IH]. cbn [fst]. now apply (X c c' Ht).
  - intro HF. do 3 f_equal. clear - HF R4 X. induction R4 as [|[c v] [c' v'] l l' [Ht Ev] _ IH]; [reflexivity|]. inversion HF as [|? ? F1 F2]; subst. cbn [map fst snd] in *.
    rewrite (IH F2), Ev. apply (X c c' Ht) in F1. now rewrite F1.
Qed.
Print Assumptions C111_set_refuted.
(** Full statement: every statement sets the columns that were changed.
    Proved: all do if the changed columns lie behind the key. *)
Theorem C111_behind_partial : forall fuel rt files sys opt parts want_db want_tb spare d sys_pages fs ws,
  redo_input rt (kept_update d) d sys_pages want_db want_tb fs ws ->
  Forall (fun w => forall cols key, table_of d w cols key -> Forall (fun cv => behind cols key (fst cv)) (up_old w)) ws ->
  files sys = Some (map IoBytes sys_pages) -> parts_of opt parts -> map files parts = map (fun f => Some (log_events f)) fs ->
  (Z.to_nat 16384 < fuel)%nat ->
  exists lines, FromRedoFile fuel rt files sys opt want_db want_tb spare = (lines, Ok tt)
    /\ Forall2 (fun w line => line = verbatim w /\ (plain_update w -> restores w line)) ws lines.
Proof.
  intros fuel rt files sys opt parts want_db want_tb spare d sys_pages fs ws HI HB F1 Hp F2 Hfuel. pose proof HI as [_ [Hc _]].
  destruct (C111_set_refuted fuel rt files sys opt parts want_db want_tb spare d sys_pages fs ws HI F1 Hp F2 Hfuel) as [lines [E H]]. exists lines. split; [exact E|].
  clear - H HB Hc. induction H as [|w line ws lines [cols [key [w' [HT [HR [-> HP]]]]]] _ IH]; [constructor|]. inversion HB as [|? ? B1 B2]; subst. constructor; [|exact (IH B2)].
  specialize (B1 cols key HT). assert (Hd : NoDup (map cd_name cols)) by (destruct HT as [t [rest [_ [_ [-> _]]]]]; apply Hc).
  assert (Hi : incl key cols) by (destruct HT as [t [rest [_ [_ [-> [[i [_ [_ [_ [X _]]]]] _]]]]]]; exact X).
  assert (w' = w) as ->.
  { destruct HR as [R1 [R2 [R3 R4]]]. assert (X : up_old w' = up_old w).
    { clear - R4 B1 Hd Hi. induction R4 as [|[c v] [c' v'] l l' [Ht Ev] _ IH]; [reflexivity|]. inversion B1 as [|? ? F1 F2]; subst. rewrite (IH F2). cbn [fst snd] in *.
      destruct (taken_same cols key c c' Hd Hi Ht) as [T1 T2]. apply T1, T2 in F1. now rewrite F1, Ev. }
    destruct w as [a b o q], w' as [a' b' o' q']. cbn in *. now subst. }
  split; [reflexivity|]. intro P. now apply HP.
Qed.
Print Assumptions C111_behind_partial.

(** m(u INT, y INT, primary key y): setting u back to 1 in the row with y = 258
    comes out as setting y to 1, which changes the key. *)
Definition update_m : undo := mkUndo UNDO_UPDATE 0 false 3 25 0 77 99 [store_int 4 258] [(3, Some (store_int 4 1))] [0; 5].
Definition change_m : update := mkUpdate (txt "test") (txt "m") [(c_u, SStr (txt "1"))] [(c_y, SStr (txt "258"))].
Definition said_m : update := mkUpdate (txt "test") (txt "m") [(c_y, SStr (txt "1"))] [(c_y, SStr (txt "258"))].
Definition log_m : list SpecRedo.entry :=
  [ECheckpoint 123456; ERecord false 0 5 (BUndo (enc_undo update_m)); ERecord true 3 300 (BInsert (Some (mkDesc 1 [4; 4])) 100 (mkIns None [1; 2; 3])); EEnd].
Definition file_m : log_file := let p := flat_map enc_entry log_m in
  mkLogFile (lf_header sample_file) (lf_cp1 sample_file) (lf_unused sample_file) (lf_cp2 sample_file) [block_with (12 + len p) p; block_with 0 []].
Example C111_case rt : redo_input rt (kept_update dict3) dict3 pages3 [] (txt "m") [file_m] [change_m] /\ plain_update said_m
  /\ table_of dict3 change_m [c_u; c_y] [c_y] /\ renamed [c_u; c_y] [c_y] change_m said_m /\ ~ behind [c_u; c_y] [c_y] c_u
  /\ verbatim said_m = txt "update `test`.`m` set `y`='1' where `y`='258';".
Proof.
  assert (KM : has_key dict3 25 [c_y] [c_u]) by exact key_m.
  assert (IM : In (mkTableDef (txt "test/m") 25 9) (dd_tables dict3)) by (do 4 right; now left).
  assert (TF : taken_for [c_u; c_y] [c_y] c_u c_y) by (exists 0%nat; split; [reflexivity|]; split; [intros [X|[]]; discriminate X|reflexivity]).
  split; [|split; [|split; [|split; [|split; [|reflexivity]]]]].
  - split; [apply pages3_stores|]. split; [apply dict3_consistent|]. split; [|split; [auto|]].
    + constructor; [|constructor]. destruct sample_file_ok as [H1 [H2 [H3 [H4 [H5 [H6 H7]]]]]]. unfold file_ok. cbn [file_m lf_header lf_cp1 lf_unused lf_cp2 lf_blocks].
      do 6 (split; [assumption|]). constructor; [|constructor; [apply block_check; reflexivity|constructor]]. apply block_check; reflexivity.
    + exists log_m, []. split; [reflexivity|]. split; [reflexivity|]. split; [reflexivity|].
      unfold log_m. apply ls_checkpoint; [lia|].
      apply ls_update; [unfold word; lia|unfold word; lia| |right; vm_compute; discriminate|repeat constructor; discriminate| | |reflexivity| |].
      * unfold undo_ok, update_m; cbn [un_type un_cmpl un_no un_table un_info un_trx un_roll un_keys un_changes].
        split; [cbn; unfold UNDO_INSERT, UNDO_UPDATE; tauto|]; do 6 (split; [lia|]); split; [repeat (constructor; [reflexivity|]); constructor|];
        split; [reflexivity|]; split; [constructor; [unfold field_ok; cbn; unfold zlen; cbn; lia|constructor]|]; reflexivity.
      * exists (mkTableDef (txt "test/m") 25 9), [c_u]. split; [exact IM|]. split; [reflexivity|]. split; [left; split; [reflexivity|]; split; cbn; lia|].
        split; [exact KM|]. split; [|split; [|intros _]].
        -- constructor; [|constructor]; cbn [fst snd change_m up_key]. apply (enc_int rt c_y 4 258); try reflexivity; [cbn; tauto|cbn; tauto|lia|exact (fmt_d_spec 258)].
        -- change (columns_of dict3 (td_id (mkTableDef (txt "test/m") 25 9))) with [c_u; c_y]. constructor; [|constructor; [|constructor]].
           ++ split; [cbn; intros [H|[H|[H|[]]]]; discriminate H|]. left. cbn. split; [reflexivity|]. split; tauto.
           ++ split; [cbn; intros [H|[H|[H|[]]]]; discriminate H|]. left. cbn. split; [reflexivity|]. split; tauto.
        -- constructor; [|constructor]. split; [reflexivity|]. cbn [fst snd]. apply (enc_int rt c_u 4 1); try reflexivity; [cbn; tauto|cbn; tauto|lia|exact (fmt_d_spec 1)].
      * split; [repeat (constructor; [split; [exact I|discriminate]|]); constructor|]. split; [constructor; [exact I|constructor]|].
        split; [left; reflexivity|]. split.
        { change (columns_of dict3 (un_table update_m)) with [c_u; c_y]. intros c c' [<-|[]] [j [Hj [_ Hn]]].
          destruct j as [|[|j]]; [injection Hn as <-; now repeat split|discriminate Hj|destruct j; discriminate Hj]. }
        split; [constructor; [split; [exact primary_tight|cbn; repeat (constructor; [lia|]); constructor]|constructor]|].
        intros _. constructor; [cbn; lia|constructor].
      * split; [now left|now right].
      * apply ls_record; [unfold word; lia|unfold word; lia| |exact I|vm_compute; discriminate|apply ls_end, ls_nil].
        cbn. unfold short, desc_ok, insertion_ok. cbn. unfold zlen. cbn. lia.
  - split; [cbn; lia|]. split; [cbn; lia|]. split; [discriminate|]. split; [reflexivity|]. cbn. repeat (constructor; [split; cbn; lia|]). constructor.
  - exists (mkTableDef (txt "test/m") 25 9), [c_u]. split; [exact IM|]. split; [left; split; [reflexivity|]; split; cbn; lia|]. split; [reflexivity|]. split; [exact KM|reflexivity].
  - do 3 (split; [reflexivity|]). constructor; [split; [exact TF|reflexivity]|constructor].
  - intros [a [b [E H]]]. destruct a as [|x a]; [injection E as <-; apply (H c_y); [now left|right; now left]|].
    destruct a as [|y a]; [discriminate E|]. destruct a; discriminate E.
Qed.
(** A key of two columns among others: x would be taken for y, y for the key's
    second column, and z for itself. *)
Example C111_spread : let col n := mkColumnDef 40 0 (txt n) 6 (256 + 3) 4 in let cols := [col "x"; col "k"; col "y"; col "l"; col "z"] in let key := [col "k"; col "l"] in
  in_order cols key /\ taken_for cols key (col "x") (col "y") /\ taken_for cols key (col "y") (col "l") /\ taken_for cols key (col "z") (col "z").
Proof.
  cbn zeta. split; [reflexivity|]. split; [|split]; [exists 0%nat|exists 2%nat|exists 4%nat]; (split; [reflexivity|]; split; [intros [X|[X|[]]]; discriminate X|reflexivity]).
Qed.
(** A key against the order of the table, behind as many columns as it has. *)
Example C110_kept_case : let col n := mkColumnDef 40 0 (txt n) 6 (256 + 3) 4 in let cols := [col "x"; col "y"; col "l"; col "k"] in let key := [col "k"; col "l"] in
  kept cols key /\ ~ in_order cols key.
Proof.
  cbn zeta. split; [|discriminate]. right. intros k [<-|[<-|[]]]; [exists 3%nat|exists 2%nat]; (split; [reflexivity|cbn; lia]).
Qed.
