(** C110: the rows of tables with a key of two columns. *)
From Coq Require Import String ZifyBool Permutation.
From Verif Require Import GoBase Utils Ibdata Redo Cmd SpecInno SpecText SpecSql SpecRecord SpecRow SpecPage SpecDict SpecTool SpecRedo SpecUndo SpecToolRedo SpecCmd
  PBase PWire PValue PText PRec PPage PSql PFile PDict PMove PPair PUndo PLog PBuild PTool PToolRedo PropDict PropCmd PropRedo PropTool PropToolRedo.
Local Open Scope string_scope.
Local Open Scope list_scope.
Local Open Scope Z_scope.
Ltac Zify.zify_post_hook ::= Z.div_mod_to_equations.

(** * Exactly what becomes of the columns *)
Lemma nodup_at {A B} (f : A -> B) l i j x y : NoDup (map f l) -> nth_error l i = Some x -> nth_error l j = Some y -> f x = f y -> i = j.
Proof.
  intros H Hi Hj E. rewrite NoDup_nth_error in H. apply H.
  - rewrite map_length. apply nth_error_Some. congruence.
  - rewrite !nth_error_map, Hi, Hj. cbn [option_map]. now rewrite E.
Qed.
(** What the two columns in front are, of the columns x1 in place i1 and x2 in
    place i2 (from 0): a key column is lost if the table begins with the key's
    columns in the wrong order, or has its second column second and the first
    further down. *)
Definition front (i1 i2 : nat) (x1 x2 first : Column) : list Column :=
  if (i1 <? i2)%nat then [x2; x1]
  else if (i2 =? 0)%nat then (if (i1 =? 1)%nat then [x2; x2] else [x1; x2])
  else [x1; first].
Theorem C110_columns_refuted : forall f1 f2 cols i1 i2 x1 x2, NoDup (map c_name cols) -> fd_name f1 <> fd_name f2 ->
  nth_error cols i1 = Some x1 -> nth_error cols i2 = Some x2 -> c_name x1 = fd_name f1 -> c_name x2 = fd_name f2 ->
  let r := front i1 i2 x1 x2 (hd x1 cols) ++ skipn 2 cols in
  moveColumns2First [f1; f2] cols = Ok r
  /\ (~ In (fd_name f1) (map c_name r) <-> i2 = 0%nat /\ i1 = 1%nat)
  /\ (~ In (fd_name f2) (map c_name r) <-> i2 = 1%nat /\ (2 <= i1)%nat).
Proof.
  intros f1 f2 cols i1 i2 x1 x2 Hd Hne H1 H2 E1 E2 r.
  assert (Hi : i1 <> i2) by (intros ->; congruence).
  assert (HO : forall a b c y z, cols = a ++ y :: b ++ z :: c -> (c_name y = fd_name f1 /\ c_name z = fd_name f2 \/ c_name y = fd_name f2 /\ c_name z = fd_name f1) ->
    Forall (fun c => ~ in_pair f1 f2 c) (a ++ b ++ c)).
  { intros a b c y z E HN. rewrite E in Hd. clear - Hd HN. assert (P : Permutation (a ++ y :: b ++ z :: c) (y :: z :: a ++ b ++ c)).
    { transitivity (y :: a ++ b ++ z :: c); [symmetry; apply Permutation_middle|]. constructor. rewrite !app_assoc. symmetry. apply Permutation_middle. }
    apply (Permutation_map c_name) in P. pose proof (Permutation_NoDup P Hd) as N. cbn [map] in N. inversion N as [|? ? N1 N2]; subst. inversion N2 as [|? ? N3 N4]; subst.
    apply Forall_forall. intros x Hx. apply (in_map c_name) in Hx. intros [X|X]; destruct HN as [[A B]|[A B]].
    - apply N1. rewrite A, <- X. now right.
    - apply N3. now rewrite B, <- X.
    - apply N3. now rewrite B, <- X.
    - apply N1. rewrite A, <- X. now right. }
  assert (HM : moveColumns2First [f1; f2] cols = Ok r).
  { unfold r, front. destruct (Nat.ltb_spec i1 i2) as [Lt|Ge].
    - destruct (nth_error_split _ _ H1) as [a [l [El La]]].
      assert (Hl : nth_error l (i2 - i1 - 1) = Some x2).
      { rewrite El, nth_error_app2 in H2 by lia. replace (i2 - List.length a)%nat with (S (i2 - i1 - 1)) in H2 by lia. exact H2. }
      destruct (nth_error_split _ _ Hl) as [b [c [Eb Lb]]]. rewrite Eb in El. rewrite El. apply (pair_forward f1 f2 Hne); [exact E1|exact E2|]. eapply HO; [exact El|]. left. now split.
    - destruct (nth_error_split _ _ H2) as [a [l [El La]]].
      assert (Hl : nth_error l (i1 - i2 - 1) = Some x1).
      { rewrite El, nth_error_app2 in H1 by lia. replace (i1 - List.length a)%nat with (S (i1 - i2 - 1)) in H1 by lia. exact H1. }
      destruct (nth_error_split _ _ Hl) as [b [c [Eb Lb]]]. rewrite Eb in El. rewrite El. rewrite (pair_backward f1 f2 Hne a x2 b x1 c E1 E2); [|eapply HO; [exact El|]; right; now split].
      f_equal. destruct a as [|a0 a]; cbn [List.length] in La; [|replace (i2 =? 0)%nat with false by lia; reflexivity].
      subst i2. cbn [Nat.eqb]. destruct b as [|b0 b]; cbn [List.length] in Lb; [replace (i1 =? 1)%nat with true by lia; reflexivity|replace (i1 =? 1)%nat with false by lia; reflexivity]. }
  split; [exact HM|]. clear HM HO. unfold r. rewrite map_app.
  assert (LL : (2 <= List.length cols)%nat) by (assert (i1 < List.length cols)%nat by (apply nth_error_Some; congruence); assert (i2 < List.length cols)%nat by (apply nth_error_Some; congruence); lia).
  assert (HS : forall i x, nth_error cols i = Some x -> (2 <= i)%nat -> In (c_name x) (map c_name (skipn 2 cols))).
  { intros i x Hx Li. apply in_map. destruct cols as [|? [|? l]]; cbn [List.length] in LL; try lia. destruct i as [|[|i]]; try lia. cbn in Hx |- *. now apply nth_error_In in Hx. }
  assert (HSN : forall i x, nth_error cols i = Some x -> (i < 2)%nat -> ~ In (c_name x) (map c_name (skipn 2 cols))).
  { intros i x Hx Li Hin. apply in_map_iff in Hin as [y [Ey Hy]]. apply In_nth_error in Hy as [j Hj]. assert (Hj2 : nth_error cols (2 + j) = Some y) by (destruct cols as [|? [|? l]]; cbn [List.length] in LL; try lia; exact Hj).
    pose proof (nodup_at c_name cols _ _ _ _ Hd Hj2 Hx Ey). lia. }
  assert (HH : nth_error cols 0 = Some (hd x1 cols)) by (destruct cols; [cbn in LL; lia|reflexivity]).
  assert (IR : forall n (x y : Column) l, In n (map c_name [x; y] ++ l) <-> c_name x = n \/ c_name y = n \/ In n l) by (intros; cbn; tauto).
  unfold front. destruct (Nat.ltb_spec i1 i2) as [Lt|Ge].
  - rewrite !IR. split; split; intro X; try lia; exfalso; apply X; [right; left; exact E1|left; exact E2].
  - destruct (Nat.eqb_spec i2 0) as [->|N0].
    + destruct (Nat.eqb_spec i1 1) as [->|N1]; rewrite !IR.
      * split; split; intro X; try lia.
        -- intros [Y|[Y|Y]]; [congruence|congruence|]. rewrite <- E1 in Y. exact (HSN 1%nat x1 H1 ltac:(lia) Y).
        -- exfalso. apply X. now left.
      * split; split; intro X; try lia; exfalso; apply X; [left; exact E1|right; left; exact E2].
    + rewrite !IR. split; [split; intro X; try lia; exfalso; apply X; left; exact E1|]. split.
      * intro X. destruct (Nat.eq_dec i2 1) as [->|]; [lia|]. exfalso. apply X. right. right. rewrite <- E2. apply (HS i2); [exact H2|lia].
      * intros [-> L1] [Y|[Y|Y]]; [congruence| |].
        -- rewrite <- E2 in Y. pose proof (nodup_at c_name cols _ _ _ _ Hd HH H2 Y). discriminate.
        -- rewrite <- E2 in Y. exact (HSN 1%nat x2 H2 ltac:(lia) Y).
Qed.
Print Assumptions C110_columns_refuted.
Example C110_columns_case : let cols := t_columns (abc_table []) in
  moveColumns2First (map (mkField 0) [txt "b"; txt "a"]) cols = Ok [ncol "a" 0 true; ncol "a" 0 true; ncol "c" 2 false]
  /\ moveColumns2First (map (mkField 0) [txt "c"; txt "b"]) cols = Ok [ncol "c" 2 false; ncol "a" 0 true; ncol "c" 2 false].
Proof. split; reflexivity. Qed.

(** * The table map *)
Lemma placed_moved2 d t e key rest : consistent d -> placed d t e -> has_key d (td_id t) key rest ->
  exists fields r, map fd_name fields = map cd_name key /\ moveColumns2First fields (map descriptor (columns_of d (td_id t))) = Ok r
  /\ t_columns e = firstn (List.length key) r ++ [internal_column (td_id t) "DB_TRX_ID" (zlen key) 6; internal_column (td_id t) "DB_ROLL_PTR" (zlen key + 1) 7] ++ skipn (List.length key) r.
Proof.
  intros Hc [e1 [cs [HL [Em HW]]]] [i [Hi [Hp [Hk [Hin Hr]]]]]. pose proof HL as [_ [_ [L3 _]]].
  pose proof (in_map (index_entry d) _ _ Hi) as Hx. pose proof (entries_one d (td_id t) Hc) as Ho.
  pose proof (one_weaken _ (fun x => is_primary (snd x)) _ (fun x H => or_introl H) Ho) as Ho1.
  exists (ix_fields (snd (index_entry d i))), cs. split; [cbn [index_entry snd ix_fields]; rewrite map_map, Hk; reflexivity|].
  rewrite (pk_one _ _ _ _ _ Ho1 Hx Hp eq_refl) in Em. split; [exact Em|].
  destruct HW as [_ [_ [_ [_ [_ [HP _]]]]]]. cbn [with_columns t_indexes t_columns] in HP. rewrite L3 in HP.
  rewrite (HP _ _ Hx Hp). cbn [ix_nfields index_entry snd]. apply in_indexes in Hi as [Hi Ht]. destruct (key_fits d i Hc Hi Hp) as [_ Hn].
  assert (Hlen : id_nfields i = zlen key) by (rewrite Hn; unfold zlen; f_equal; rewrite <- (map_length fd_column), <- Hk; apply map_length).
  rewrite Hlen. unfold zlen. now rewrite Nat2Z.id.
Qed.
(** For every dictionary and every table with a key of two columns: which of
    them the table map has lost. *)
Theorem C110_lost_refuted : forall fuel rt pages d t k1 k2 rest i1 i2, stores_dictionary pages d -> consistent d -> (Z.to_nat 16384 < fuel)%nat ->
  In t (dd_tables d) -> has_key d (td_id t) [k1; k2] rest -> SpecTool.ordinary k1 -> SpecTool.ordinary k2 ->
  nth_error (columns_of d (td_id t)) i1 = Some k1 -> nth_error (columns_of d (td_id t)) i2 = Some k2 ->
  exists tm e, ParseDictPage fuel rt (Some (map IoBytes pages)) = ([], Ok (tm, None)) /\ mget tm (td_id t) = Some e
    /\ (~ In (cd_name k1) (map c_name (t_columns e)) <-> i2 = 0%nat /\ i1 = 1%nat)
    /\ (~ In (cd_name k2) (map c_name (t_columns e)) <-> i2 = 1%nat /\ (2 <= i1)%nat).
Proof.
  intros fuel rt pages d t k1 k2 rest i1 i2 Hs Hc Hf Ht HK O1 O2 N1 N2. destruct (dict_read fuel rt pages d Hs Hc Hf) as [tm [E HR]].
  destruct (represents_in d _ tm t Hc HR Ht) as [e [Hg HP]]. exists tm, e. split; [exact E|]. split; [exact Hg|].
  destruct (placed_moved2 d t e [k1; k2] rest Hc HP HK) as [fields [r [EF [Er Ec]]]]. destruct fields as [|f1 [|f2 [|? ?]]]; try discriminate EF. cbn [map] in EF. injection EF as F1 F2.
  assert (Hne : fd_name f1 <> fd_name f2).
  { destruct HK as [i [Hi [Hp [Hk _]]]]. apply in_indexes in Hi as [Hi _]. pose proof Hc as [_ [_ [_ [_ [_ [_ Hkey]]]]]]. destruct (Hkey i Hi Hp) as [K1 _]. rewrite <- Hk in K1. cbn [map] in K1. inversion K1 as [|? ? X _]; subst.
    intro Y. apply X. left. congruence. }
  assert (Hd : NoDup (map c_name (map descriptor (columns_of d (td_id t))))) by (rewrite map_map; apply Hc).
  destruct (C110_columns_refuted f1 f2 (map descriptor (columns_of d (td_id t))) i1 i2 (descriptor k1) (descriptor k2) Hd Hne) as [Em [L1 L2]];
    [now rewrite nth_error_map, N1|now rewrite nth_error_map, N2|now symmetry|now symmetry|]. rewrite Er in Em. set (r' := front _ _ _ _ _ ++ _) in *. assert (Q : r' = r) by congruence. clearbody r'. subst r'. clear Em. rewrite F1 in L1. rewrite F2 in L2.
  assert (X : forall c, SpecTool.ordinary c -> In (cd_name c) (map c_name (t_columns e)) <-> In (cd_name c) (map c_name r)).
  { intros c Oc. rewrite Ec. rewrite <- (firstn_skipn (List.length [k1; k2]) r) at 3. rewrite !map_app, !in_app_iff. cbn [map internal_column c_name In]. split; [|tauto].
    intros [Y|[[Y|[Y|[]]]|Y]]; try tauto; exfalso; apply Oc; cbn [In]; [right; left|right; right; left]; exact Y. }
  rewrite (X k1 O1), (X k2 O2). split; assumption.
Qed.
Print Assumptions C110_lost_refuted.

(** * The statements *)
(** The undo records of a table that begins with its key's two columns in the
    wrong order, otherwise as in [shown_update]. *)
Definition swapped_update (d : dictionary) (u : undo) (w : update) : Prop :=
  Forall (fun cv => textual (snd cv) /\ mysql_type (fst cv) <> 12) (up_key w)
  /\ Forall (fun cv => textual (snd cv)) (up_old w)
  /\ (exists k1 k2 rest, map fst (up_key w) = [k1; k2] /\ columns_of d (un_table u) = k2 :: k1 :: rest)
  /\ Forall (fun i => tight (id_name i) /\ Forall (fun b => 0 <= b < 256) (id_name i)) (indexes_of d (un_table u))
  /\ (un_type u = UNDO_UPDATE -> Forall (fun f => zlen (up_key w) <= fst f) (un_changes u)).
(** The update that is printed: any row with the second key value whose first
    is the text <nil>. *)
Definition first_lost (w : update) : update :=
  mkUpdate (up_db w) (up_tb w) (up_old w)
    (match up_key w with kv :: l => (fst kv, SStr (txt "<nil>")) :: l | [] => [] end).
Lemma undo_swapped rt pages d tm u w m : stores_dictionary pages d -> consistent d -> represents (dd_tables d) (placed d) tm -> undo_ok u ->
  datetime_room w m -> undo_of rt d u w -> swapped_update d u w ->
  exists e key, mget tm (un_table u) = Some e /\ t_db e = up_db w /\ t_name e = up_tb w /\ key_names e (map cd_name (map fst (up_key w)))
    /\ key_shown rt e (map cd_name (map fst (up_key w))) (un_keys u) key []
    /\ map (fun k => (fst k, SStr (snd k))) key = map (fun cv => (cd_name (fst cv), snd cv)) (up_key (first_lost w))
    /\ (un_type u = UNDO_UPDATE -> exists old, old_shown rt e m (un_changes u) old []
          /\ map (fun o => (fst o, shown_value (snd o))) old = map (fun cv => (cd_name (fst cv), snd cv)) (up_old w)).
Proof.
  intros Hs Hc HR Hok HM [t [rest [Ht [Hid [Hnm [Hk [HK [HO HU]]]]]]]] [P1 [P2 [[k1 [k2 [rest' [HKE HE]]]] [P4 P5]]]].
  rewrite Hid in HE, P4 |- *. destruct (represents_in d _ tm t Hc HR Ht) as [e [Hg HP]].
  pose proof (placed_agrees d tm Hc HR) as [_ [_ HA]]. destruct (HA t Ht) as [e' [Hg' [Hn' [_ [_ Hx]]]]]. rewrite Hg in Hg'. injection Hg' as <-.
  destruct (named_unique _ _ _ _ _ Hnm Hn') as [Ed Et]. rewrite HKE in *.
  assert (Hnd : NoDup (map cd_name (columns_of d (td_id t)))) by apply Hc.
  assert (Hrest : rest = rest').
  { destruct Hk as [_ [_ [_ [_ [_ Hr]]]]]. rewrite HE in Hr, Hnd. rewrite Hr. cbn [filter existsb]. cbn [map] in Hnd. inversion Hnd as [|? ? N1 N2]; subst. inversion N2 as [|? ? N3 N4]; subst.
    destruct (list_eq_dec Z.eq_dec (cd_name k2) (cd_name k2)); [|contradiction]. destruct (list_eq_dec Z.eq_dec (cd_name k1) (cd_name k1)); [|contradiction].
    rewrite orb_true_r. cbn [orb negb]. apply filter_all. intros x Hi. destruct (list_eq_dec Z.eq_dec (cd_name k1) (cd_name x)) as [Z|Z]; [exfalso; apply N3; rewrite Z; now apply in_map|].
    destruct (list_eq_dec Z.eq_dec (cd_name k2) (cd_name x)) as [Z2|Z2]; [exfalso; apply N1; right; rewrite Z2; now apply in_map|]. reflexivity. }
  subst rest'.
  destruct (placed_moved2 d t e [k1; k2] rest Hc HP Hk) as [fields [r [EF [Er Ec]]]]. destruct fields as [|f1 [|f2 [|? ?]]]; try discriminate EF. cbn [map] in EF. injection EF as F1 F2.
  rewrite HE in Hnd, Er. pose proof Hnd as Hnd2. cbn [map] in Hnd2. inversion Hnd2 as [|? ? N1 N2]; subst. inversion N2 as [|? ? N3 N4]; subst.
  assert (Hne : fd_name f1 <> fd_name f2) by (rewrite F1, F2; intro Y; apply N1; now left).
  destruct (C110_columns_refuted f1 f2 (map descriptor (k2 :: k1 :: rest)) 1 0 (descriptor k1) (descriptor k2)) as [Em _];
    [rewrite map_map; exact Hnd|exact Hne|reflexivity|reflexivity|now symmetry|now symmetry|]. rewrite Er in Em. injection Em as ->. cbn [front Nat.ltb Nat.leb Nat.eqb map skipn app firstn List.length] in Ec.
  pose proof (column_lengths pages d Hs) as Hlen. rewrite Forall_forall in Hlen, HO.
  assert (Hcol : forall c, In c (columns_of d (td_id t)) -> SpecTool.ordinary c /\ readable_column c /\ 0 <= cd_len c < 2 ^ 32).
  { intros c Hi. destruct (HO c Hi). split; [assumption|]. split; [assumption|]. apply Hlen. unfold columns_of in Hi. apply filter_In in Hi. tauto. }
  destruct (up_key w) as [|[k1' v1] [|[k2' v2] [|? ?]]] eqn:EK; try discriminate HKE. cbn [map fst] in HKE. injection HKE as -> ->.
  inversion HK as [|? y1 ? ks1 E1 HK1 X1 X2]; subst. inversion HK1 as [|? y2 ? ks2 E2 HK2 X3 X4]; subst. inversion HK2; subst. cbn [fst snd] in *.
  inversion P1 as [|? ? [T1 M1] P1']; subst. inversion P1' as [|? ? [T2 M2] _]; subst. cbn [fst snd] in *.
  destruct (Hcol k1) as [O1 [R1 LE1]]; [rewrite HE; right; now left|]. destruct (Hcol k2) as [O2 [R2 LE2]]; [rewrite HE; now left|].
  destruct (value_text rt k2 v2 y2 [] E2 T2 R2 LE2) as [g [bin [x [-> [Hx2 EP]]]]]; [contradiction|]. rewrite app_nil_r in EP.
  exists e, [(cd_name k1, txt "<nil>"); (cd_name k2, x)]. split; [exact Hg|]. split; [now symmetry|]. split; [now symmetry|]. split; [exact (key_is d t e [k1; k2] rest Hc Hk Hx P4)|]. split; [|split].
  - cbn [map fst]. refine (key_cons rt e _ _ _ _ no_column VNil false _ _ [] _ _ _ _ _).
    + right. split; [|reflexivity]. rewrite Ec. cbn [map app c_name internal_column descriptor In]. rewrite map_map. intros [Y|[Y|[Y|[Y|Y]]]].
      * apply N1. left. now symmetry.
      * apply N1. left. now symmetry.
      * apply O1. cbn [In]. right. left. exact Y.
      * apply O1. cbn [In]. right. right. left. exact Y.
      * apply N3. exact Y.
    + cbn. lia.
    + reflexivity.
    + right. split; reflexivity.
    + apply (key_quiet rt e _ _ _ _ (descriptor k2) g bin x); [|apply (fixed_layout k2 R2 LE2)|exact EP|left; exact Hx2|constructor].
      rewrite Ec. apply cn_here. reflexivity.
  - unfold first_lost. rewrite EK. reflexivity.
  - intro HT. pose proof (P5 HT) as HPos. apply (olds_shown rt e (key_slots [k1; k2] rest) m (up_old w) (un_changes u) (HU HT) HM).
    + exact P2.
    + intros cv _ Hi. apply Hcol. rewrite HE. unfold users, key_slots in Hi. apply in_flat_map in Hi as [s [Hi1 Hi2]]. destruct s as [n|c]; [contradiction|]. destruct Hi2 as [<-|[]].
      cbn [map app In] in Hi1. destruct Hi1 as [X|[X|[X|[X|X]]]]; try discriminate X; [injection X as <-; right; now left|injection X as <-; now left|].
      apply in_map_iff in X as [c' [Y1 Y2]]. injection Y1 as ->. right. now right.
    + destruct Hok as [_ [_ [_ [_ [_ [_ [_ [_ [_ [Hf _]]]]]]]]]]. rewrite Forall_forall in Hf, HPos. apply Forall_forall. intros f Hi c Hn. rewrite Ec. destruct (Hf f Hi) as [Hf1 _]. specialize (HPos f Hi).
      change (zlen [(k1, v1); (k2, SStr x)]) with 2 in HPos.
      apply (slot_past [k1; k2] rest _ c Hn) with (l := [descriptor k2; descriptor k2]); [cbn [List.length]; lia|reflexivity].
Qed.
Lemma swapped_text d u w : swapped_update d u w -> Forall (fun cv => textual (snd cv)) (up_old w).
Proof. intros [_ [H _]]. exact H. Qed.
Lemma log_swapped rt pages d tm want_db want_tb after es ws : stores_dictionary pages d -> consistent d -> represents (dd_tables d) (placed d) tm ->
  log_says rt d want_db want_tb (swapped_update d) after es ws ->
  log_lines rt tm want_db want_tb after es (map (fun w => verbatim (first_lost w)) ws).
Proof.
  intros Hs Hc HR. pose proof (placed_agrees d tm Hc HR) as [_ [Hids _]].
  induction 1 as [|es l _ IH|lsn es l Hl _ IH|single space page b es l W1 W2 Hb Ho Hr _ IH|single space page u es l W1 W2 Hu Hn _ IH
    |single space page u w es l W1 W2 Hu H5 HM Hw Hp Hd _ IH|single space page u w es l W1 W2 Hu H5 HM Hw Hp HT Hq _ IH].
  1-4: now constructor.
  - apply (ll_undo rt tm want_db want_tb after single space page u es []); try assumption.
    apply ul_foreign. apply mget_none. now rewrite Hids.
  - apply (ll_undo rt tm want_db want_tb after single space page u es []); try assumption.
    destruct (undo_swapped rt pages d tm u w _ Hs Hc HR Hu HM Hw Hp) as [e [key [G [E1 [E2 [K1 [K2 [_ KO]]]]]]]].
    destruct (Z.eq_dec (un_type u) UNDO_UPDATE) as [HT|HT]; [|now apply (ul_other rt tm want_db want_tb _ u e (map cd_name (map fst (up_key w))) key [])].
    destruct (KO HT) as [old [O1 _]]. apply (ul_unwanted rt tm want_db want_tb _ u e (map cd_name (map fst (up_key w))) key old [] []); try assumption. rewrite E1, E2. tauto.
  - destruct (undo_swapped rt pages d tm u w _ Hs Hc HR Hu HM Hw Hp) as [e [key [G [E1 [E2 [K1 [K2 [K3 KO]]]]]]]].
    destruct (KO HT) as [old [O1 O2]]. change (map (fun w => verbatim (first_lost w)) (w :: l)) with ([verbatim (first_lost w)] ++ map (fun w => verbatim (first_lost w)) l).
    rewrite <- (line_verbatim (first_lost w) old key) by (assumption || exact (swapped_text _ _ _ Hp)). cbn [first_lost up_db up_tb]. rewrite <- E1, <- E2.
    apply ll_undo; try assumption. apply (ul_update rt tm want_db want_tb _ u e (map cd_name (map fst (up_key w))) key old [] []); try assumption. now rewrite E1, E2.
Qed.
(** Every update of such tables is printed with the text <nil> for the value of
    the key's first column, and so finds no row, or another one. *)
Theorem C110_where_refuted : forall fuel rt files sys opt parts want_db want_tb spare d sys_pages fs ws,
  redo_input rt (swapped_update d) d sys_pages want_db want_tb fs ws ->
  files sys = Some (map IoBytes sys_pages) -> parts_of opt parts -> map files parts = map (fun f => Some (log_events f)) fs ->
  (Z.to_nat 16384 < fuel)%nat ->
  exists lines, FromRedoFile fuel rt files sys opt want_db want_tb spare = (lines, Ok tt)
    /\ Forall2 (fun w line => line = verbatim (first_lost w)
         /\ (plain_update w -> restores (first_lost w) line /\ (restores w line <-> map snd (up_key w) = map snd (up_key (first_lost w))))) ws lines.
Proof.
  intros fuel rt files sys opt parts want_db want_tb spare d sys_pages fs ws [Hs [Hc [Hf [HF [es [tail [Hp [Hl [Ht HS]]]]]]]]] F1 Hparts F2 Hfuel.
  exists (map (fun w => verbatim (first_lost w)) ws). split.
  - rewrite (C73_redo fuel rt files sys opt parts want_db want_tb spare Hparts), F1.
    destruct (dict_read fuel rt sys_pages d Hs Hc Hfuel) as [tm [-> HR]]. unfold wbind at 1. cbn [app].
    assert (E : ParseRedoLogs rt tm want_db want_tb (map files parts) spare = (map (fun w => verbatim (first_lost w)) ws, Ok None)).
    { etransitivity; [exact (f_equal (fun x => ParseRedoLogs rt tm want_db want_tb x spare) F2)|].
      apply (C68_log_partial rt tm want_db want_tb spare fs es tail _ Hf Hp Hl Ht).
      - exact (filters_agree d tm want_db want_tb Hc HR HF).
      - now apply (log_swapped rt sys_pages d tm want_db want_tb). }
    match goal with |- context [ParseRedoLogs ?a ?b ?c ?e ?x ?s] => replace (ParseRedoLogs a b c e x s) with (map (fun w => verbatim (first_lost w)) ws, @Ok (option bytes) None) by (symmetry; exact E) end.
    unfold wbind, wret. cbn [app]. now rewrite app_nil_r.
  - clear - HS. induction HS as [| | | | | |single space page u w es l W1 W2 Hu H5 HM Hw Hp1 HT Hq _ IH]; try assumption; [constructor|].
    cbn [map]. constructor; [|exact IH]. split; [reflexivity|]. intro HP.
    assert (HK : Forall (fun cv => exists s, snd cv = SStr s) (up_key w)).
    { destruct Hw as [t [rest [_ [_ [_ [_ [HK _]]]]]]]. destruct Hp1 as [Hp1 _]. clear - HK Hp1.
      induction HK as [|[c v] k cvs ks He _ IH]; constructor; inversion Hp1 as [|? ? [T1 _] T2]; subst; [|now apply IH]. cbn [fst snd] in *.
      destruct v as [|s|b|n]; try contradiction; [inversion He|]. now exists s. }
    assert (HR : restores (first_lost w) (verbatim (first_lost w))).
    { apply verbatim_restores; [exact (swapped_text _ _ _ Hp1)| |].
      - unfold first_lost. cbn [up_key]. destruct (up_key w) as [|kv l0]; [constructor|]. inversion HK; subst. constructor; [now exists (txt "<nil>")|assumption].
      - destruct HP as [Q1 [Q2 [Q3 [Q4 Q5]]]]. unfold plain_update, first_lost. cbn [up_db up_tb up_old up_key]. do 2 (split; [assumption|]).
        destruct (up_key w) as [|kv l0]; [contradiction|]. split; [discriminate|]. split; [assumption|]. cbn [app] in *. inversion Q5 as [|? ? [Q6 _] Q7]; subst. constructor; [|exact Q7]. split; [exact Q6|]. reflexivity. }
    split; [exact HR|]. unfold restores in *. rewrite HR. unfold first_lost. cbn [up_db up_tb up_old up_key]. destruct (up_key w) as [|[c v] l0]; [tauto|]. cbn [map fst snd]. split; intro X.
    + injection X as X. subst v. reflexivity.
    + injection X as X. subst v. reflexivity.
Qed.
Print Assumptions C110_where_refuted.
(** Full statement: no key column is lost.  Proved: none is if the key is the
    table's first columns in order, however many. *)
Theorem C110_leading_partial : forall fuel rt pages d t key rest, stores_dictionary pages d -> consistent d -> (Z.to_nat 16384 < fuel)%nat ->
  In t (dd_tables d) -> has_key d (td_id t) key rest -> columns_of d (td_id t) = key ++ rest ->
  exists tm e, ParseDictPage fuel rt (Some (map IoBytes pages)) = ([], Ok (tm, None)) /\ mget tm (td_id t) = Some e
    /\ forall k, In k key -> column_named (cd_name k) (t_columns e) (descriptor k).
Proof.
  intros fuel rt pages d t key rest Hs Hc Hf Ht [i [Hi [Hp [Hk _]]]] HE. destruct (dict_read fuel rt pages d Hs Hc Hf) as [tm [E HR]].
  destruct (represents_in d _ tm t Hc HR Ht) as [e [Hg HP]]. exists tm, e. split; [exact E|]. split; [exact Hg|]. intros k Hin.
  rewrite (placed_leading d t e key rest Hc HP HE) by (exists i; auto). apply (first_named (map descriptor (rev key)) _ (descriptor k)).
  - apply in_map. now apply in_rev in Hin.
  - rewrite map_map. change (NoDup (map cd_name (rev key))). rewrite map_rev. apply NoDup_rev.
    pose proof Hc as [_ [_ [_ [_ [_ [Hnd _]]]]]]. specialize (Hnd (td_id t)). rewrite HE, map_app in Hnd. now apply nodup_front in Hnd.
Qed.
Print Assumptions C110_leading_partial.

(** s(b INT, a INT, v VARCHAR, primary key (a, b)): an update of v in the row
    (7, 8), undone where a is <nil>. *)
Definition s_b : column_def := mkColumnDef 31 0 (txt "b") 6 (256 + 3) 4.
Definition s_a : column_def := mkColumnDef 31 1 (txt "a") 6 (256 + 3) 4.
Definition s_v : column_def := mkColumnDef 31 2 (txt "v") 12 15 60.
Definition dict_s : dictionary := mkDictionary [mkTableDef (txt "test/s") 31 5] [s_b; s_a; s_v] [mkIndexDef 31 50 (txt "PRIMARY") 2 3]
  [mkFieldDef 50 0 (txt "a"); mkFieldDef 50 1 (txt "b")].
Definition pages_s : list (list Z) :=
  [sys_page 8 10 11 12; built false 8 17855 1 (map rrec (map tables_fields (dd_tables dict_s))); built false 10 17855 2 (map rrec (map columns_fields (dd_columns dict_s)));
   built false 11 17855 3 (map rrec (map indexes_fields (dd_indexes dict_s))); built false 12 17855 4 (map rrec (map fields_fields (dd_fields dict_s)))].
Lemma pages_s_facts : exists p1 p2 p3 p4, pages_s = [sys_page 8 10 11 12; p1; p2; p3; p4]
  /\ Forall page_image pages_s /\ map page_number pages_s = [7; 8; 10; 11; 12] /\ map index_of pages_s = [8; 1; 2; 3; 4]
  /\ holds_records tables_record p1 (dd_tables dict_s) /\ holds_records columns_record p2 (dd_columns dict_s)
  /\ holds_records indexes_record p3 (dd_indexes dict_s) /\ holds_records fields_record p4 (dd_fields dict_s).
Proof.
  assert (S1 : Forall small (map tables_fields (dd_tables dict_s))) by (apply small_checks; vm_compute; reflexivity).
  assert (S2 : Forall small (map columns_fields (dd_columns dict_s))) by (apply small_checks; vm_compute; reflexivity).
  assert (S3 : Forall small (map indexes_fields (dd_indexes dict_s))) by (apply small_checks; vm_compute; reflexivity).
  assert (S4 : Forall small (map fields_fields (dd_fields dict_s))) by (apply small_checks; vm_compute; reflexivity).
  assert (F : forall fss, Forall small fss -> Forall fine (map rrec fss)) by (intros fss H; induction H; cbn [map]; constructor; [now apply rrec_fine|assumption]).
  assert (L1 : zlen (blocks false 125 (map rrec (map tables_fields (dd_tables dict_s)))) <= 16000) by (vm_compute; discriminate).
  assert (L2 : zlen (blocks false 125 (map rrec (map columns_fields (dd_columns dict_s)))) <= 16000) by (vm_compute; discriminate).
  assert (L3 : zlen (blocks false 125 (map rrec (map indexes_fields (dd_indexes dict_s)))) <= 16000) by (vm_compute; discriminate).
  assert (L4 : zlen (blocks false 125 (map rrec (map fields_fields (dd_fields dict_s)))) <= 16000) by (vm_compute; discriminate).
  destruct (built_page false 8 17855 1 _ (F _ S1) L1) as [[I1 _] [N1 [_ [X1 _]]]]; try lia.
  destruct (built_page false 10 17855 2 _ (F _ S2) L2) as [[I2 _] [N2 [_ [X2 _]]]]; try lia.
  destruct (built_page false 11 17855 3 _ (F _ S3) L3) as [[I3 _] [N3 [_ [X3 _]]]]; try lia.
  destruct (built_page false 12 17855 4 _ (F _ S4) L4) as [[I4 _] [N4 [_ [X4 _]]]]; try lia.
  do 4 eexists. split; [reflexivity|]. split; [unfold pages_s; constructor; [apply sys_image|repeat (constructor; [assumption|]); constructor]|].
  split; [unfold pages_s; cbn [map]; rewrite N1, N2, N3, N4; reflexivity|]. split; [unfold pages_s; cbn [map]; rewrite X1, X2, X3, X4; reflexivity|].
  assert (M : forall {D} (record : D -> list (rstored -> Prop)) fields (defs : list D), (forall d, In d defs -> matches (record d) (fields d)) -> Forall2 (fun d fs => matches (record d) fs) defs (map fields defs)).
  { intros D record fields defs H. induction defs as [|d defs IH]; cbn [map]; constructor; [apply H; now left|apply IH; intros x Hx; apply H; now right]. }
  split; [|split; [|split]]; apply holds_built; try assumption; try lia; apply M; intros d Hd; cbn [dict_s dd_tables dd_columns dd_indexes dd_fields In] in Hd;
    repeat (destruct Hd as [<-|Hd]; [|]); try contradiction.
  1-4: match goal with |- matches _ ?f => exists f, [] end; split; [symmetry; apply app_nil_r|repeat (constructor; [first [exact I|reflexivity|split; [cbn; lia|reflexivity]]|]); constructor].
  1: match goal with |- matches _ (indexes_fields ?i) => exists (firstn 9 (indexes_fields i)), [RBytes (be 4 50)] end; split; [reflexivity|repeat (constructor; [first [exact I|reflexivity|split; [cbn; lia|reflexivity]]|]); constructor].
  1-2: match goal with |- matches _ ?f => exists f, [] end; split; [symmetry; apply app_nil_r|repeat (constructor; [first [exact I|reflexivity|split; [cbn; lia|reflexivity]]|]); constructor].
Qed.
Lemma pages_s_stores : stores_dictionary pages_s dict_s.
Proof.
  destruct pages_s_facts as [p1 [p2 [p3 [p4 [E [Hi [Hn [Hx [H1 [H2 [H3 H4]]]]]]]]]]]. split; [exact Hi|].
  assert (Ef : firsts pages_s = pages_s) by (apply distinct_firsts; rewrite Hn; repeat constructor; cbn; lia).
  exists 8, 10, 11, 12. rewrite Ef. rewrite E in *. cbn [map] in Hn, Hx. injection Hn as Hn1 Hn2 Hn3 Hn4. injection Hx as Hx1 Hx2 Hx3 Hx4.
  split; [reflexivity|].
  assert (X0 : index_of (sys_page 8 10 11 12) = 8) by reflexivity.
  unfold stored_tree. rewrite Ef. cbn [filter]. rewrite X0, Hx1, Hx2, Hx3, Hx4. cbn [Z.eqb Pos.eqb].
  assert (One : forall {D} (record : D -> list (rstored -> Prop)) key page defs, holds_records record page defs ->
    Forall2 (tree_page record key) [page] [defs] /\ List.concat [defs] = defs).
  { intros D record key page defs H. split; [constructor; [now apply leaf_page|constructor]|apply app_nil_r]. }
  split; [exists p1, [], [dd_tables dict_s]; auto|]. split; [exists p2, [], [dd_columns dict_s]; auto|].
  split; [exists p3, [], [dd_indexes dict_s]; auto|exists p4, [], [dd_fields dict_s]; auto].
Qed.
Lemma dict_s_consistent : consistent dict_s.
Proof.
  split; [distinct|]. split; [distinct|]. split; [|split; [|split; [|split]]].
  - intros t [<-|[]]. exists (txt "test"), (txt "s"). left. split; [reflexivity|]. split; cbn; lia.
  - intros i [<-|[]]; cbn; tauto.
  - intro id. apply few. unfold indexes_of. cbn [dict_s dd_indexes filter id_table]. destruct (31 =? id); [now left|now right].
  - intro id. unfold columns_of. cbn [dict_s dd_columns filter s_a s_b s_v cd_table]. destruct (31 =? id); distinct.
  - intros i [<-|[]] Hp. split; [distinct|]. split; [|reflexivity]. intros x Hx. vm_compute in Hx |- *. tauto.
Qed.
Lemma has_key_s : has_key dict_s 31 [s_a; s_b] [s_v].
Proof. exists (mkIndexDef 31 50 (txt "PRIMARY") 2 3). split; [now left|]. split; [reflexivity|]. split; [reflexivity|]. split; [|reflexivity]. intros x [<-|[<-|[]]]; [right; now left|now left]. Qed.
Definition update_s : undo := mkUndo UNDO_UPDATE 0 false 3 31 0 77 99 [store_int 4 7; store_int 4 8] [(4, Some (txt "abc"))] [0; 5].
Definition change_s : update := mkUpdate (txt "test") (txt "s") [(s_v, SStr (txt "abc"))] [(s_a, SStr (txt "7")); (s_b, SStr (txt "8"))].
Definition log_s : list SpecRedo.entry :=
  [ECheckpoint 123456; ERecord false 0 5 (BUndo (enc_undo update_s)); ERecord true 3 300 (BInsert (Some (mkDesc 1 [4; 4])) 100 (mkIns None [1; 2; 3])); EEnd].
Definition file_s : log_file := let p := flat_map enc_entry log_s in
  mkLogFile (lf_header sample_file) (lf_cp1 sample_file) (lf_unused sample_file) (lf_cp2 sample_file) [block_with (12 + len p) p; block_with 0 []].
Example C110_case rt : redo_input rt (swapped_update dict_s) dict_s pages_s [] (txt "s") [file_s] [change_s] /\ plain_update change_s
  /\ verbatim (first_lost change_s) = txt "update `test`.`s` set `v`='abc' where `a`='<nil>' and `b`='8';"
  /\ has_key dict_s 31 [s_a; s_b] [s_v] /\ nth_error (columns_of dict_s 31) 1 = Some s_a /\ nth_error (columns_of dict_s 31) 0 = Some s_b.
Proof.
  split; [|split; [|split; [reflexivity|split; [exact has_key_s|split; reflexivity]]]].
  - split; [apply pages_s_stores|]. split; [apply dict_s_consistent|]. split; [|split; [auto|]].
    + constructor; [|constructor]. destruct sample_file_ok as [H1 [H2 [H3 [H4 [H5 [H6 H7]]]]]]. unfold file_ok. cbn [file_s lf_header lf_cp1 lf_unused lf_cp2 lf_blocks].
      do 6 (split; [assumption|]). constructor; [|constructor; [apply block_check; reflexivity|constructor]]. apply block_check; reflexivity.
    + exists log_s, []. split; [reflexivity|]. split; [reflexivity|]. split; [reflexivity|].
      unfold log_s. apply ls_checkpoint; [lia|].
      apply ls_update; [unfold word; lia|unfold word; lia| |right; vm_compute; discriminate|repeat constructor; discriminate| | |reflexivity| |].
      * unfold undo_ok, update_s; cbn [un_type un_cmpl un_no un_table un_info un_trx un_roll un_keys un_changes].
        split; [cbn; unfold UNDO_INSERT, UNDO_UPDATE; tauto|]; do 6 (split; [lia|]); split; [repeat (constructor; [reflexivity|]); constructor|];
        split; [reflexivity|]; split; [constructor; [unfold field_ok; cbn; unfold zlen; cbn; lia|constructor]|]; reflexivity.
      * exists (mkTableDef (txt "test/s") 31 5), [s_v]. split; [now left|]. split; [reflexivity|]. split; [left; split; [reflexivity|]; split; cbn; lia|].
        split; [exact has_key_s|]. split; [|split; [|intros _]].
        -- constructor; [|constructor; [|constructor]]; cbn [fst snd change_s up_key].
           ++ apply (enc_int rt s_a 4 7); try reflexivity; [cbn; tauto|cbn; tauto|lia|exact (fmt_d_spec 7)].
           ++ apply (enc_int rt s_b 4 8); try reflexivity; [cbn; tauto|cbn; tauto|lia|exact (fmt_d_spec 8)].
        -- change (columns_of dict_s (td_id (mkTableDef (txt "test/s") 31 5))) with [s_b; s_a; s_v]. constructor; [|constructor; [|constructor; [|constructor]]].
           ++ split; [cbn; intros [H|[H|[H|[]]]]; discriminate H|]. left. cbn. split; [reflexivity|]. split; tauto.
           ++ split; [cbn; intros [H|[H|[H|[]]]]; discriminate H|]. left. cbn. split; [reflexivity|]. split; tauto.
           ++ split; [cbn; intros [H|[H|[H|[]]]]; discriminate H|]. do 4 right. left. split; reflexivity.
        -- constructor; [|constructor]. split; [reflexivity|]. cbn [fst snd]. apply enc_varchar; [reflexivity|reflexivity|cbn; lia|cbn; lia].
      * split; [repeat (constructor; [split; [exact I|discriminate]|]); constructor|]. split; [constructor; [exact I|constructor]|].
        split; [exists s_a, s_b, [s_v]; split; reflexivity|].
        split; [constructor; [split; [exact primary_tight|cbn; repeat (constructor; [lia|]); constructor]|constructor]|].
        intros _. constructor; [cbn; lia|constructor].
      * split; [now left|now right].
      * apply ls_record; [unfold word; lia|unfold word; lia| |exact I|vm_compute; discriminate|apply ls_end, ls_nil].
        cbn. unfold short, desc_ok, insertion_ok. cbn. unfold zlen. cbn. lia.
  - split; [cbn; lia|]. split; [cbn; lia|]. split; [discriminate|]. split; [reflexivity|]. cbn. repeat (constructor; [split; cbn; lia|]). constructor.
Qed.
