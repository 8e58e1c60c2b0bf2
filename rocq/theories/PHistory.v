(** Proofs about running the recovered statements (C91). *)
From Verif Require Import GoBase SpecInno SpecText SpecSql SpecRecord SpecDict SpecTool SpecToolRedo SpecHistory.
From Coq Require Import Permutation.
Local Open Scope list_scope.

Lemma text_eqb_iff a b : text_eqb a b = true <-> a = b.
Proof. unfold text_eqb. destruct (list_eq_dec Z.eq_dec a b); split; congruence. Qed.
Definition sqlval_dec (a b : sqlval) : {a = b} + {a <> b}.
Proof. decide equality; try apply (list_eq_dec Z.eq_dec); apply Z.eq_dec. Defined.

(** The old value an update has for a column of a row *)
Fixpoint assoc (n : list Z) (l : list (column_def * sqlval)) : option sqlval :=
  match l with [] => None | cv :: l => if text_eqb (cd_name (fst cv)) n then Some (snd cv) else assoc n l end.
Definition concerned (w : update) (db tb : list Z) (k : list sqlval) : bool :=
  text_eqb (up_db w) db && text_eqb (up_tb w) tb && (if list_eq_dec sqlval_dec (map snd (up_key w)) k then true else false).
Lemma concerned_iff w db tb k : concerned w db tb k = true <-> concerns w db tb k.
Proof.
  unfold concerned, concerns. rewrite !Bool.andb_true_iff, !text_eqb_iff. destruct (list_eq_dec sqlval_dec (map snd (up_key w)) k); intuition congruence.
Qed.
Definition old_value (db tb : list Z) (k : list sqlval) (n : list Z) (w : update) : option sqlval :=
  if concerned w db tb k then assoc n (up_old w) else None.
Fixpoint first_old (db tb : list Z) (k : list sqlval) (n : list Z) (ws : list update) : option sqlval :=
  match ws with [] => None | w :: ws => match old_value db tb k n w with Some v => Some v | None => first_old db tb k n ws end end.
Lemma assoc_none n l : assoc n l = None <-> ~ In n (map (fun cv => cd_name (fst cv)) l).
Proof.
  induction l as [|cv l IH]; cbn; [tauto|]. destruct (text_eqb (cd_name (fst cv)) n) eqn:E.
  - apply text_eqb_iff in E. split; [discriminate|]. intro H. exfalso. apply H. now left.
  - rewrite IH. assert (cd_name (fst cv) <> n) by (intro X; apply text_eqb_iff in X; congruence). tauto.
Qed.
Lemma assoc_row n l (r : row) v : map snd l = map r (map (fun cv => cd_name (fst cv)) l) -> assoc n l = Some v -> r n = v.
Proof.
  induction l as [|cv l IH]; cbn; [discriminate|]. intros E. injection E as E1 E2. destruct (text_eqb (cd_name (fst cv)) n) eqn:X.
  - apply text_eqb_iff in X. intro Y. injection Y as <-. congruence.
  - now apply IH.
Qed.
Lemma first_old_app db tb k n a b : first_old db tb k n (a ++ b) = match first_old db tb k n a with Some v => Some v | None => first_old db tb k n b end.
Proof. induction a as [|w a IH]; cbn; [reflexivity|]. destruct (old_value db tb k n w); [reflexivity|apply IH]. Qed.
Lemma old_value_none db tb k n w : (concerns w db tb k -> ~ In n (changed_columns w)) <-> old_value db tb k n w = None.
Proof.
  unfold old_value. destruct (concerned w db tb k) eqn:E.
  - apply concerned_iff in E. rewrite assoc_none. unfold changed_columns. tauto.
  - split; [reflexivity|]. intros _ H. apply concerned_iff in H. congruence.
Qed.

(** * Histories *)
(** The row with key [k] is there, and has the values of [r]. *)
Definition is_row (key : list Z -> list Z -> list (list Z)) (s : contents) (db tb : list Z) (k : list sqlval) (r : row) : Prop :=
  (exists r0, In r0 (s db tb) /\ key_values key db tb r0 = k) /\ forall r0, In r0 (s db tb) -> key_values key db tb r0 = k -> row_eq r r0.
Lemma is_row_here key s db tb r : keyed key s -> In r (s db tb) -> is_row key s db tb (key_values key db tb r) r.
Proof.
  intros H Hi. split; [now exists r|]. intros r0 H0 E. specialize (H db tb). apply in_split in Hi as [l1 [l2 El]]. rewrite El in H, H0.
  rewrite map_app in H. apply NoDup_remove in H as [_ H]. rewrite <- map_app in H. apply in_app_or in H0 as [H0|[H0|H0]].
  - exfalso. apply H. rewrite <- E. apply in_map, in_or_app. now left.
  - subst. now intro.
  - exfalso. apply H. rewrite <- E. apply in_map, in_or_app. now right.
Qed.
Lemma key_kept key db tb (r r' : row) : (forall n, In n (key db tb) -> r' n = r n) -> key_values key db tb r' = key_values key db tb r.
Proof. intro H. unfold key_values. now apply map_ext_in. Qed.
Definition pair_dec (a b : list Z * list Z) : {a = b} + {a <> b}.
Proof. decide equality; apply (list_eq_dec Z.eq_dec). Defined.
Lemma changed_key key before s w r r' s' : step key before s (Changed w r r') s' -> key_values key (up_db w) (up_tb w) r' = key_values key (up_db w) (up_tb w) r.
Proof.
  intros [_ [_ [_ [_ [H1 H2]]]]]. apply key_kept. intros n Hn. apply H2. intro X. exact (H1 n X Hn).
Qed.
Lemma step_keyed key before s e s' : keyed key s -> step key before s e s' -> keyed key s'.
Proof.
  intros Hk Hs db tb. specialize (Hk db tb).
  assert (G : forall db0 tb0 old new, replaced s s' db0 tb0 old new ->
    (forall l1 l2, (db, tb) = (db0, tb0) -> s db0 tb0 = l1 ++ old ++ l2 -> NoDup (map (key_values key db0 tb0) (l1 ++ old ++ l2)) -> NoDup (map (key_values key db0 tb0) (l1 ++ new ++ l2))) ->
    NoDup (map (key_values key db tb) (s' db tb))).
  { intros db0 tb0 old new [l1 [l2 [E1 [E2 E3]]]] H. destruct (pair_dec (db, tb) (db0, tb0)) as [X|X].
    - injection X as -> ->. rewrite E2. apply (H l1 l2 eq_refl E1). now rewrite <- E1.
    - now rewrite (E3 db tb X). }
  destruct e as [db0 tb0 r|db0 tb0 r|w r r'|db0 tb0 r r'].
  - destruct Hs as [Hr Hn]. apply (G _ _ _ _ Hr). intros l1 l2 _ E. rewrite E in Hn. cbn [app] in *. rewrite !map_app. cbn [map]. rewrite map_app in Hn. intro N.
    apply (Permutation_NoDup (l := key_values key db0 tb0 r :: map (key_values key db0 tb0) l1 ++ map (key_values key db0 tb0) l2)); [apply Permutation_middle|]. now constructor.
  - apply (G _ _ _ _ Hs). intros l1 l2 _ _. cbn [app]. rewrite !map_app. cbn [map]. apply NoDup_remove_1.
  - pose proof (changed_key _ _ _ _ _ _ _ Hs) as E. destruct Hs as [Hr _]. apply (G _ _ _ _ Hr). intros l1 l2 _ _. rewrite !map_app. cbn [map]. now rewrite E.
  - destruct Hs as [Hr [E _]]. apply (G _ _ _ _ Hr). intros l1 l2 _ _. rewrite !map_app. cbn [map]. now rewrite E.
Qed.
Lemma replaced_row key s s' db0 tb0 (old new : row) db tb k r : keyed key s -> replaced s s' db0 tb0 [old] [new] -> key_values key db0 tb0 new = key_values key db0 tb0 old -> is_row key s db tb k r ->
  exists r', is_row key s' db tb k r' /\ (((db, tb) = (db0, tb0) /\ k = key_values key db0 tb0 old /\ row_eq r old /\ r' = new) \/ (((db, tb) <> (db0, tb0) \/ k <> key_values key db0 tb0 old) /\ r' = r)).
Proof.
  intros Hk [l1 [l2 [E1 [E2 E3]]]] Ek [[r0 [Hr0 Hkr]] Hall].
  destruct (pair_dec (db, tb) (db0, tb0)) as [X|X]; [|exists r; split; [|right; tauto]; split; rewrite (E3 db tb X); eauto].
  injection X as -> ->. destruct (list_eq_dec sqlval_dec k (key_values key db0 tb0 old)) as [Y|Y].
  - exists new. assert (Ho : In old (s db0 tb0)) by (rewrite E1; apply in_or_app; right; now left). split.
    + split; [exists new; split; [rewrite E2; apply in_or_app; right; now left|congruence]|]. intros x Hx Kx. rewrite E2 in Hx.
      specialize (Hk db0 tb0). rewrite E1, map_app in Hk. cbn [map app] in Hk. apply NoDup_remove in Hk as [_ Hk]. rewrite <- map_app in Hk.
      apply in_app_or in Hx as [Hx|[Hx|Hx]]; [exfalso; apply Hk; rewrite <- Y, <- Kx; apply in_map, in_or_app; now left|subst; now intro|exfalso; apply Hk; rewrite <- Y, <- Kx; apply in_map, in_or_app; now right].
    + left. split; [reflexivity|]. split; [exact Y|]. split; [apply Hall; [exact Ho|congruence]|reflexivity].
  - exists r. split; [|right; tauto]. assert (G : forall x, key_values key db0 tb0 x = k -> In x (s' db0 tb0) -> In x (s db0 tb0)).
    { intros x Kx. rewrite E1, E2. intro Hx. apply in_app_or in Hx as [Hx|[Hx|Hx]]; apply in_or_app; [now left| |right; now right]. subst x. exfalso. apply Y. congruence. }
    split; [|intros x Hx Kx; apply Hall; [now apply G|exact Kx]]. exists r0. split; [|exact Hkr]. rewrite E1 in Hr0. rewrite E2.
    apply in_app_or in Hr0 as [Hx|[Hx|Hx]]; apply in_or_app; [now left| |right; now right]. subst r0. exfalso. apply Y. congruence.
Qed.
Lemma event_row key before s e s' db tb k r : keyed key s -> step key before s e s' -> is_row key s db tb k r ->
  (forall db' tb' r', e = Inserted db' tb' r' \/ e = Deleted db' tb' r' -> (db', tb') <> (db, tb) \/ key_values key db tb r' <> k) ->
  exists r', is_row key s' db tb k r' /\ forall n, (forall w, In w before -> old_value db tb k n w = None) ->
    match first_old db tb k n (logged e) with Some v => r n = v | None => r' n = r n end.
Proof.
  intros Hk Hs Hr Hst. destruct e as [db0 tb0 x|db0 tb0 x|w x x'|db0 tb0 x x'].
  - exists r. split; [|intros; reflexivity]. destruct Hs as [[l1 [l2 [E1 [E2 E3]]]] _]. destruct Hr as [[r0 [H0 K0]] Ha]. destruct (pair_dec (db, tb) (db0, tb0)) as [X|X]; [|split; rewrite (E3 db tb X); eauto].
    injection X as -> ->. rewrite E1 in H0. split; [exists r0; split; [|exact K0]; rewrite E2; apply in_app_or in H0 as [H0|H0]; apply in_or_app; [now left|right; now right]|].
    intros y Hy Ky. rewrite E2 in Hy. apply in_app_or in Hy as [Hy|[Hy|Hy]]; [apply Ha; [rewrite E1; apply in_or_app; now left|exact Ky]| |apply Ha; [rewrite E1; apply in_or_app; now right|exact Ky]].
    subst y. destruct (Hst db0 tb0 x (or_introl eq_refl)); congruence.
  - exists r. split; [|intros; reflexivity]. destruct Hs as [l1 [l2 [E1 [E2 E3]]]]. destruct Hr as [[r0 [H0 K0]] Ha]. destruct (pair_dec (db, tb) (db0, tb0)) as [X|X]; [|split; rewrite (E3 db tb X); eauto].
    injection X as -> ->. rewrite E1 in H0. split.
    + exists r0. split; [|exact K0]. rewrite E2. apply in_app_or in H0 as [H0|[H0|H0]]; apply in_or_app; [now left| |now right]. subst r0. destruct (Hst db0 tb0 x (or_intror eq_refl)); congruence.
    + intros y Hy Ky. apply Ha; [|exact Ky]. rewrite E1. rewrite E2 in Hy. apply in_app_or in Hy as [Hy|Hy]; apply in_or_app; [now left|right; now right].
  - pose proof (changed_key _ _ _ _ _ _ _ Hs) as E. destruct Hs as [Hrep [H1 [H2 [H3 [H4 H5]]]]]. destruct (replaced_row key s s' _ _ x x' db tb k r Hk Hrep E Hr) as [r' [R1 R2]].
    exists r'. split; [exact R1|]. intros n _. cbn [logged first_old]. unfold old_value. destruct (concerned w db tb k) eqn:C.
    + apply concerned_iff in C. destruct C as [C1 [C2 C3]]. destruct R2 as [[_ [_ [Q1 Q2]]]|[[Q1|Q1] _]]; [|congruence|congruence].
      destruct (assoc n (up_old w)) as [v|] eqn:A; [rewrite (Q1 n); exact (assoc_row n _ x v H3 A)|]. subst r'. rewrite (Q1 n). apply H5. now apply assoc_none.
    + destruct R2 as [[Q0 [Q1 _]]|[_ ->]]; [|reflexivity]. exfalso. injection Q0 as -> ->. assert (concerned w (up_db w) (up_tb w) k = true); [|congruence].
      apply concerned_iff. split; [reflexivity|]. split; [reflexivity|]. congruence.
  - destruct Hs as [Hrep [E H]]. destruct (replaced_row key s s' _ _ x x' db tb k r Hk Hrep E Hr) as [r' [R1 R2]]. exists r'. split; [exact R1|]. intros n Hb. cbn [logged first_old].
    destruct R2 as [[Q0 [Q1 [Q2 ->]]]|[_ ->]]; [|reflexivity]. injection Q0 as -> ->. rewrite (Q2 n). destruct (sqlval_dec (x' n) (x n)) as [Y|Y]; [exact Y|].
    destruct (H n Y) as [w [W1 [W2 W3]]]. specialize (Hb w W1). rewrite <- Q1 in W2. apply (old_value_none _ _ _ _ _) in Hb; tauto.
Qed.
Lemma history_row key before s es s' db tb k r : history key before s es s' -> keyed key s -> is_row key s db tb k r ->
  Forall (fun e => match e with Inserted db' tb' r' | Deleted db' tb' r' => (db', tb') <> (db, tb) \/ key_values key db tb r' <> k | _ => True end) es ->
  exists r', is_row key s' db tb k r' /\ forall n, (forall w, In w before -> old_value db tb k n w = None) ->
    match first_old db tb k n (flat_map logged es) with Some v => r n = v | None => r' n = r n end.
Proof.
  intro H. revert r. induction H as [before s|before s e s' es s'' Hs _ IH]; intros r Hk Hr Hst; [exists r; split; [exact Hr|intros; reflexivity]|].
  inversion Hst as [|? ? X1 X2]; subst. destruct (event_row key before s e s' db tb k r Hk Hs Hr) as [r1 [R1 R2]].
  { intros db' tb' r' [->| ->]; exact X1. }
  destruct (IH r1 (step_keyed _ _ _ _ _ Hk Hs) R1 X2) as [r2 [R3 R4]]. exists r2. split; [exact R3|]. intros n Hn. cbn [flat_map]. rewrite first_old_app. specialize (R2 n Hn).
  destruct (first_old db tb k n (logged e)) as [v|] eqn:F; [exact R2|]. assert (Hn' : forall w, In w (before ++ logged e) -> old_value db tb k n w = None).
  { intros w Hi. apply in_app_or in Hi as [Hi|Hi]; [now apply Hn|]. destruct e as [| |w0 x x'|]; try contradiction. destruct Hi as [<-|[]]. cbn [logged first_old] in F. now destruct (old_value db tb k n w0). }
  specialize (R4 n Hn'). now rewrite R2 in R4.
Qed.
(** What the history says of each recorded update *)
Definition well_keyed (key : list Z -> list Z -> list (list Z)) (w : update) : Prop :=
  map (fun cv => cd_name (fst cv)) (up_key w) = key (up_db w) (up_tb w) /\ forall n, In n (changed_columns w) -> ~ In n (key (up_db w) (up_tb w)).
Lemma history_keys key before s es s' : history key before s es s' -> Forall (well_keyed key) (flat_map logged es).
Proof.
  induction 1 as [|before s e s' es s'' Hs _ IH]; [constructor|]. cbn [flat_map]. apply Forall_app. split; [|exact IH]. destruct e as [| |w r r'|]; cbn [logged]; try constructor; [|constructor].
  destruct Hs as [_ [H1 [_ [_ [H2 _]]]]]. now split.
Qed.
Lemma history_positions key before s es s' : history key before s es s' ->
  Forall (fun e => match e with Inserted _ _ _ | Deleted _ _ _ => False | _ => True end) es ->
  forall db tb, map (key_values key db tb) (s' db tb) = map (key_values key db tb) (s db tb).
Proof.
  induction 1 as [|before s e s' es s'' Hs _ IH]; intros Hf db tb; [reflexivity|]. inversion Hf as [|? ? F1 F2]; subst. rewrite (IH F2). clear IH F2.
  assert (G : forall db0 tb0 r r', replaced s s' db0 tb0 [r] [r'] -> key_values key db0 tb0 r' = key_values key db0 tb0 r -> map (key_values key db tb) (s' db tb) = map (key_values key db tb) (s db tb)).
  { intros db0 tb0 r r' [l1 [l2 [E1 [E2 E3]]]] E. destruct (pair_dec (db, tb) (db0, tb0)) as [X|X]; [|now rewrite (E3 _ _ X)]. injection X as -> ->. rewrite E1, E2, !map_app. cbn [map]. now rewrite E. }
  destruct e as [| |w r r'|db0 tb0 r r']; try contradiction.
  - pose proof (changed_key _ _ _ _ _ _ _ Hs) as E. destruct Hs as [Hr _]. exact (G _ _ _ _ Hr E).
  - destruct Hs as [Hr [E _]]. exact (G _ _ _ _ Hr E).
Qed.

(** * Running *)
(** The statement for a changed column *)
Definition single (w : update) : Prop :=
  zlen (up_old w) = 1 /\ Forall (fun cv => exists x, snd cv = SStr x) (up_key w).
Lemma meets_key key w r : well_keyed key w -> Forall (fun cv => exists x, snd cv = SStr x) (up_key w) ->
  meets (map (fun cv => (cd_name (fst cv), snd cv)) (up_key w)) r = true <-> map snd (up_key w) = key_values key (up_db w) (up_tb w) r.
Proof.
  intros [E _] HS. unfold meets, key_values. rewrite <- E. clear E. rewrite map_map. induction HS as [|[c v] l [x Hx] _ IH]; cbn [map forallb fst snd]; [tauto|].
  cbn [snd] in Hx. subst v. rewrite Bool.andb_true_iff, IH. split.
  - intros [H1 H2]. rewrite H2. f_equal. destruct (r (cd_name c)); cbn in H1; try discriminate. apply text_eqb_iff in H1. now subst.
  - intro H. injection H as H1 H2. rewrite <- H1. cbn. split; [now apply text_eqb_iff|exact H2].
Qed.
Lemma run_row key w line s : well_keyed key w -> single w -> restores w line -> exists s', run line s = Some s'
  /\ (forall db tb, map (key_values key db tb) (s' db tb) = map (key_values key db tb) (s db tb))
  /\ forall db tb k x, is_row key s db tb k x -> exists y, is_row key s' db tb k y /\ forall n, y n = match old_value db tb k n w with Some v => v | None => x n end.
Proof.
  intros Hw [H1 HS] HR. unfold restores in HR. unfold run. rewrite HR. destruct (up_old w) as [|[c v] [|? ?]] eqn:EO; unfold zlen in H1; cbn [List.length] in H1; try lia.
  cbn [map forallb snd fst andb]. eexists. split; [reflexivity|]. cbn [fold_left fst snd].
  set (m := meets (map (fun cv => (cd_name (fst cv), snd cv)) (up_key w))). set (f := fun r : row => if m r then assign (cd_name c) v r else r).
  assert (Hc : ~ In (cd_name c) (key (up_db w) (up_tb w))) by (apply Hw; unfold changed_columns; rewrite EO; now left).
  assert (Kf : forall r, key_values key (up_db w) (up_tb w) (f r) = key_values key (up_db w) (up_tb w) r).
  { intro r. apply key_kept. intros n Hn. unfold f. destruct (m r); [|reflexivity]. unfold assign. destruct (text_eqb (cd_name c) n) eqn:X; [|reflexivity]. apply text_eqb_iff in X. now subst n. }
  assert (Dec : forall db tb, text_eqb (up_db w) db && text_eqb (up_tb w) tb = true -> up_db w = db /\ up_tb w = tb) by (intros db tb E; apply Bool.andb_true_iff in E; rewrite !text_eqb_iff in E; exact E).
  split.
  - intros db tb. destruct (text_eqb (up_db w) db && text_eqb (up_tb w) tb) eqn:E; [|reflexivity]. apply Dec in E as [<- <-]. rewrite map_map. apply map_ext. exact Kf.
  - intros db tb k x [[r0 [R1 R2]] Ha]. unfold old_value, concerned. destruct (text_eqb (up_db w) db && text_eqb (up_tb w) tb) eqn:E; cbn [andb].
    2:{ exists x. split; [split; cbv beta; rewrite E; [now exists r0|exact Ha]|reflexivity]. }
    pose proof (Dec _ _ E) as [D1 D2]. subst db tb.
    pose proof (fun r => meets_key key w r Hw HS) as M. fold m in M. destruct (list_eq_dec sqlval_dec (map snd (up_key w)) k) as [K|K]; cbv iota.
    + exists (assign (cd_name c) v x). split; [split; cbv beta; rewrite E|].
      * exists (f r0). split; [now apply in_map|]. now rewrite Kf.
      * intros r Hr Kr. apply in_map_iff in Hr as [r1 [<- Hr]]. fold (f r1) in *. rewrite Kf in Kr. pose proof (Ha r1 Hr Kr) as Hx. intro n. unfold f. replace (m r1) with true by (symmetry; apply M; congruence).
        unfold assign. now rewrite (Hx n).
      * intro n. rewrite EO. cbn [assoc fst snd]. unfold assign. now destruct (text_eqb (cd_name c) n).
    + exists x. split; [split; cbv beta; rewrite E|reflexivity].
      * exists (f r0). split; [now apply in_map|]. now rewrite Kf.
      * intros r Hr Kr. apply in_map_iff in Hr as [r1 [<- Hr]]. fold (f r1) in *. rewrite Kf in Kr. pose proof (Ha r1 Hr Kr) as Hx. intro n. unfold f. destruct (m r1) eqn:Em; [|apply Hx]. apply M in Em. congruence.
Qed.
Lemma run_all_rows key ws lines : Forall (well_keyed key) ws -> Forall single ws -> Forall2 restores ws lines -> forall s, exists s', run_all lines s = Some s'
  /\ (forall db tb, map (key_values key db tb) (s' db tb) = map (key_values key db tb) (s db tb))
  /\ forall db tb k x, is_row key s db tb k x -> exists y, is_row key s' db tb k y /\ forall n, y n = match first_old db tb k n (rev ws) with Some v => v | None => x n end.
Proof.
  intros Hw Hs HR. induction HR as [|w line ws lines R1 _ IH]; intro s.
  - exists s. split; [reflexivity|]. split; [reflexivity|]. intros db tb k x Hx. exists x. split; [exact Hx|reflexivity].
  - inversion Hw as [|? ? W1 W2]; subst. inversion Hs as [|? ? S1 S2]; subst. destruct (run_row key w line s W1 S1 R1) as [s1 [E1 [P1 Q1]]]. destruct (IH W2 S2 s1) as [s2 [E2 [P2 Q2]]].
    exists s2. split; [cbn [run_all]; now rewrite E1|]. split; [intros; rewrite P2; apply P1|]. intros db tb k x Hx. destruct (Q1 _ _ _ _ Hx) as [y [Y1 Y2]]. destruct (Q2 _ _ _ _ Y1) as [z [Z1 Z2]].
    exists z. split; [exact Z1|]. intro n. rewrite (Z2 n). cbn [rev]. rewrite first_old_app. cbn [first_old]. destruct (first_old db tb k n (rev ws)); [reflexivity|]. rewrite (Y2 n). now destruct (old_value db tb k n w).
Qed.
(** Any order of the statements that ends, for every column, with the first
    old value, restores the rows. *)
Lemma restores_all key es s0 s1 ws lines : history key [] s0 es s1 -> keyed key s0 -> Permutation (flat_map logged es) ws -> Forall single ws -> Forall2 restores ws lines ->
  (forall db tb k n, first_old db tb k n (rev ws) = first_old db tb k n (flat_map logged es)) ->
  exists s2, run_all lines s1 = Some s2 /\ restored key es s0 s2.
Proof.
  intros H Hk Hp Hs HR HE. pose proof (history_keys _ _ _ _ _ H) as HW. assert (HW' : Forall (well_keyed key) ws) by (rewrite Forall_forall in *; intros w Hi; apply HW; now apply (Permutation_in w (Permutation_sym Hp))).
  destruct (run_all_rows key ws lines HW' Hs HR s1) as [s2 [E [P Q]]]. exists s2. split; [exact E|].
  assert (M : forall db tb r, In r (s0 db tb) -> stays key db tb r es ->
     (exists r', In r' (s2 db tb) /\ row_eq r r') /\ (forall r', In r' (s2 db tb) -> key_values key db tb r' = key_values key db tb r -> row_eq r r')).
  { intros db tb r Hi Hst. destruct (history_row key [] s0 es s1 db tb _ r H Hk (is_row_here key s0 db tb r Hk Hi) Hst) as [r1 [R1 R2]]. destruct (Q _ _ _ _ R1) as [y [[[r2 [Y1 Y2]] Y3] Z]].
    assert (Ey : row_eq r y). { intro n. rewrite (Z n), HE. specialize (R2 n (fun w X => match X : In w [] with end)). destruct (first_old db tb (key_values key db tb r) n (flat_map logged es)); congruence. }
    split; [exists r2; split; [exact Y1|]; intro n; now rewrite (Ey n), (Y3 r2 Y1 Y2 n)|]. intros r' H1 H2 n. now rewrite (Ey n), (Y3 r' H1 H2 n). }
  split; [exact M|]. intros Hf db tb. pose proof (history_positions _ _ _ _ _ H Hf db tb) as E1. specialize (P db tb). rewrite E1 in P. specialize (M db tb).
  assert (Hst : forall r, stays key db tb r es) by (intro r; unfold stays; rewrite Forall_forall in *; intros e Hi; specialize (Hf e Hi); destruct e; tauto).
  assert (M' : forall r r', In r (s0 db tb) -> In r' (s2 db tb) -> key_values key db tb r' = key_values key db tb r -> row_eq r r') by (intros r r' H1 H2 H3; now apply (M r H1 (Hst r))).
  revert P M'. generalize (s2 db tb), (s0 db tb). intros l' l. revert l'. induction l as [|r l IH]; intros [|r' l'] P M'; try discriminate P; constructor; injection P as P1 P2.
  - apply M'; [now left|now left|exact P1].
  - apply IH; [exact P2|]. intros; apply M'; [now right|now right|assumption].
Qed.
Lemma first_none db tb k n ws : first_old db tb k n ws = None <-> Forall (fun w => old_value db tb k n w = None) ws.
Proof.
  induction ws as [|w ws IH]; cbn [first_old]; [split; constructor|]. destruct (old_value db tb k n w) eqn:E.
  - split; [discriminate|]. intro H. inversion H. congruence.
  - rewrite IH. split; [now constructor|]. intro H. now inversion H.
Qed.
Lemma first_some db tb k n ws v : first_old db tb k n ws = Some v -> exists a w b, ws = a ++ w :: b /\ Forall (fun w => old_value db tb k n w = None) a /\ old_value db tb k n w = Some v.
Proof.
  induction ws as [|w ws IH]; cbn [first_old]; [discriminate|]. destruct (old_value db tb k n w) eqn:E.
  - intro H. injection H as ->. exists [], w, ws. split; [reflexivity|]. now split.
  - intro H. destruct (IH H) as [a [w' [b [-> [H1 H2]]]]]. exists (w :: a), w', b. split; [reflexivity|]. split; [now constructor|exact H2].
Qed.
Lemma value_touches db tb k n w v : old_value db tb k n w = Some v -> concerns w db tb k /\ In n (changed_columns w).
Proof.
  unfold old_value. destruct (concerned w db tb k) eqn:E; [|discriminate]. apply concerned_iff in E. intro H. split; [exact E|].
  destruct (in_dec (list_eq_dec Z.eq_dec) n (changed_columns w)) as [X|X]; [exact X|]. apply assoc_none in X. congruence.
Qed.
Lemma once_reversed db tb k n ws : changed_once ws -> first_old db tb k n (rev ws) = first_old db tb k n ws.
Proof.
  intro H. destruct (first_old db tb k n ws) as [v|] eqn:E.
  - apply first_some in E as [a [w [b [-> [H1 H2]]]]]. rewrite rev_app_distr. cbn [rev]. rewrite <- app_assoc. rewrite first_old_app.
    assert (N : first_old db tb k n (rev b) = None).
    { apply first_none. apply Forall_rev, Forall_forall. intros w' Hi. apply old_value_none. intros C. apply in_split in Hi as [b1 [b2 ->]]. apply value_touches in H2 as [[C1 [C2 C3]] T].
      apply (H a w b1 w' b2 n eq_refl); [rewrite C1, C2, C3; exact C|exact T]. }
    rewrite N. cbn [app first_old]. now rewrite H2.
  - apply first_none in E. apply first_none. now apply Forall_rev.
Qed.
