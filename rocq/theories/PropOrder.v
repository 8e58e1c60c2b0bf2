(** C82 and C92 for every table whose columns have one type, whatever its key. *)
From Coq Require Import String ZifyBool Permutation.
From Verif Require Import GoBase Utils Ibdata Cmd SpecInno SpecText SpecSql SpecRecord SpecRow SpecPage SpecDict SpecTool SpecHistory SpecLoad SpecCmd PBase PWire PValue PText PRec PPage PSql PFile PDict PMove PropDict PBuild PTool PropTool PropLoad.
Local Open Scope string_scope.
Local Open Scope list_scope.
Local Open Scope Z_scope.
Ltac Zify.zify_post_hook ::= Z.div_mod_to_equations.

Lemma move_within fields cols : (List.length fields <= List.length cols)%nat -> exists r, moveColumns2First fields cols = Ok r /\ List.length r = List.length cols /\ incl r cols.
Proof.
  intro H. unfold moveColumns2First.
  assert (X : forall n i l, (i + n <= List.length l)%nat -> (List.length fields <= List.length l)%nat -> exists r, move_outer n i fields l = Ok r /\ keeps (List.length l) l r).
  { induction n as [|n IH]; intros i l H1 H2; cbn [move_outer]; [exists l; split; [reflexivity|apply keeps_refl]|].
    destruct (inner_keeps fields 0 i l (List.length l)) as [r [E K]]; [lia|lia|lia|]. rewrite E. cbn [bind]. pose proof (proj1 K) as L.
    destruct (IH (S i) r) as [r' [E' K']]; [lia|lia|]. exists r'. split; [exact E'|]. rewrite L in K'. eapply keeps_trans; eassumption. }
  destruct (X (List.length cols) 0%nat cols) as [r [E [L [_ K]]]]; [lia|lia|]. exists r. split; [exact E|]. split; [exact L|]. rewrite firstn_all in K. rewrite <- L, firstn_all in K. exact K.
Qed.
Lemma from_map {A B} (g : A -> B) l : forall r, incl r (map g l) -> exists l', r = map g l' /\ incl l' l.
Proof.
  induction r as [|x r IH]; intro H; [exists []; split; [reflexivity|intros y []]|].
  destruct IH as [l' [-> Hl]]; [intros y Hy; apply H; now right|]. destruct (proj1 (in_map_iff g l x) (H x (or_introl eq_refl))) as [a [<- Ha]].
  exists (a :: l'). split; [reflexivity|]. intros y [<-|Hy]; auto.
Qed.
Lemma split_length {A} (f : A -> bool) l : (List.length (filter f l) + List.length (filter (fun x => negb (f x)) l) = List.length l)%nat.
Proof. induction l as [|x l IH]; [reflexivity|]. cbn [filter]. destruct (f x); cbn [negb List.length]; lia. Qed.
Lemma nodup_names {A B} (g : A -> B) l : NoDup (map g l) -> NoDup l.
Proof. induction l as [|x l IH]; intro H; [constructor|]. cbn in H. inversion H as [|? ? N H']; subst. constructor; [|now apply IH]. intro X. apply N. now apply in_map. Qed.
Lemma same_name (cols : list column_def) a b : NoDup (map cd_name cols) -> In a cols -> In b cols -> cd_name a = cd_name b -> a = b.
Proof.
  induction cols as [|c cols IH]; intros H Ha Hb E; [contradiction|]. cbn in H. inversion H as [|? ? N H']; subst.
  destruct Ha as [<-|Ha], Hb as [<-|Hb]; [reflexivity| | |now apply IH]; exfalso; apply N; [rewrite E|rewrite <- E]; now apply in_map.
Qed.
Lemma key_rest_length d id key rest : consistent d -> has_key d id key rest -> (List.length key + List.length rest = List.length (columns_of d id))%nat.
Proof.
  intros Hc [i [Hi [Hp [Hn [Hin ->]]]]]. destruct (in_indexes _ _ _ Hi) as [Hi' Ht]. destruct Hc as [_ [_ [_ [_ [_ [Hd Hk]]]]]]. destruct (Hk i Hi' Hp) as [K1 _]. specialize (Hd id).
  set (f := fun c => existsb (fun k => if list_eq_dec Z.eq_dec (cd_name k) (cd_name c) then true else false) key). rewrite <- (split_length f (columns_of d id)). f_equal. apply Permutation_length, NoDup_Permutation.
  - apply (nodup_names cd_name). now rewrite Hn.
  - apply NoDup_filter. now apply (nodup_names cd_name).
  - intro c. rewrite filter_In. unfold f. split.
    + intro H. split; [now apply Hin|]. apply existsb_exists. exists c. split; [exact H|]. destruct (list_eq_dec Z.eq_dec (cd_name c) (cd_name c)); congruence.
    + intros [H1 H2]. apply existsb_exists in H2 as [k [H2 H3]]. destruct (list_eq_dec Z.eq_dec (cd_name k) (cd_name c)) as [E|]; [|discriminate]. rewrite <- (same_name _ k c Hd (Hin k H2) H1 E). exact H2.
Qed.
Lemma key_length d id key rest : has_key d id key rest -> exists i, In i (indexes_of d id) /\ primary i /\ List.length key = List.length (fields_of d (id_id i)).
Proof. intros [i [Hi [Hp [Hn _]]]]. exists i. split; [exact Hi|]. split; [exact Hp|]. now rewrite <- (map_length cd_name), Hn, map_length. Qed.
Lemma placed_any d t e key rest : consistent d -> placed d t e -> has_key d (td_id t) key rest ->
  exists cs, List.length cs = List.length (columns_of d (td_id t)) /\ incl cs (columns_of d (td_id t))
  /\ t_columns e = map descriptor (firstn (List.length key) cs) ++ [internal_column (td_id t) "DB_TRX_ID" (zlen key) 6; internal_column (td_id t) "DB_ROLL_PTR" (zlen key + 1) 7] ++ map descriptor (skipn (List.length key) cs).
Proof.
  intros Hc [e1 [cs [HL [Em HW]]]] HK. destruct (key_length _ _ _ _ HK) as [i [Hi [Hp Lk]]]. pose proof HL as [_ [_ [L3 _]]].
  pose proof (in_map (index_entry d) _ _ Hi) as Hx. pose proof (entries_one d (td_id t) Hc) as Ho.
  pose proof (one_weaken _ (fun x => is_primary (snd x)) _ (fun x H => or_introl H) Ho) as Ho1.
  destruct (in_indexes _ _ _ Hi) as [Hi' Ht]. destruct (key_fits d i Hc Hi' Hp) as [Hf Hn]. rewrite Ht in Hf.
  destruct (move_within (ix_fields (snd (index_entry d i))) (map descriptor (columns_of d (td_id t)))) as [r [Er [Lr Ir]]]; [cbn [index_entry snd ix_fields]; now rewrite !map_length|].
  destruct (from_map descriptor _ _ Ir) as [cs' [-> Ic]]. rewrite !map_length in Lr. exists cs'. split; [exact Lr|]. split; [exact Ic|].
  rewrite (pk_one _ _ _ _ _ Ho1 Hx Hp Er) in Em. injection Em as <-.
  destruct HW as [_ [_ [_ [_ [_ [HP _]]]]]]. cbn [with_columns t_indexes t_columns] in HP. rewrite L3 in HP.
  rewrite (HP _ _ Hx Hp). cbn [ix_nfields index_entry snd]. rewrite Hn. unfold zlen. rewrite <- Lk, Nat2Z.id, firstn_map, skipn_map. reflexivity.
Qed.
Lemma all_alike l l' : List.length l = List.length l' -> (forall c c', In c l -> In c' l' -> alike c c') -> Forall2 alike l l'.
Proof.
  revert l'. induction l as [|c l IH]; intros [|c' l'] HL H; try discriminate; constructor; [apply H; now left|]. apply IH; [now injection HL|]. intros x y Hx Hy. apply H; now right.
Qed.
Lemma nullable_alike l l' : Forall2 alike l l' -> zlen (filter (fun c => negb (Z.testbit (cd_prtype c) 8)) l) = zlen (filter (fun c => negb (Z.testbit (cd_prtype c) 8)) l').
Proof.
  unfold zlen. induction 1 as [|c c' l l' [_ [H _]] _ IH]; [reflexivity|]. cbn [filter]. rewrite H. destruct (negb _); cbn [List.length]; lia.
Qed.
Lemma users_alike l l' : Forall2 alike l l' -> Forall2 alike_slot (map User l) (map User l').
Proof. induction 1; constructor; assumption. Qed.

Lemma one_type_lines fuel rt files op sys tfile d sys_pages t db tb pages vss key rest K0 R0 :
  stores_dictionary sys_pages d -> consistent d -> NoDup (map td_name (dd_tables d)) -> In t (dd_tables d) -> named_as (td_name t) db tb -> db <> [] -> ~ In 96 db -> ~ In 96 tb ->
  columns_of d (td_id t) <> [] -> Forall (fun c => ordinary c /\ readable_column c) (columns_of d (td_id t)) -> has_key d (td_id t) key rest ->
  (forall c c', In c (columns_of d (td_id t)) -> In c' (columns_of d (td_id t)) -> alike c c') ->
  List.length K0 = List.length key -> List.length R0 = List.length rest -> incl K0 (columns_of d (td_id t)) -> incl R0 (columns_of d (td_id t)) ->
  file_holds rt (is_deleted op) (key_slots K0 R0) pages vss ->
  files sys = Some (map IoBytes sys_pages) -> files tfile = Some (map IoBytes pages) -> (Z.to_nat 16384 < fuel)%nat ->
  exists lines, FromDataFile fuel rt files op sys tfile db tb = (lines, Ok tt) /\ Forall2 (fun vs line => read_replace line = Some (db, tb, vs)) vss lines.
Proof.
  intros Hs Hc Hnd Ht Hnm Hdb Hb1 Hb2 Hne Hro Hk Hone L0 L1 Ik Ir HF F1 F2 Hfuel.
  destruct (dict_read fuel rt sys_pages d Hs Hc Hfuel) as [tm [Hd HR]]. destruct (represents_in d _ tm t Hc HR Ht) as [e [Hg HP]].
  destruct (placed_any d t e key rest Hc HP Hk) as [cs [Lc [Ic Ec]]]. pose proof (key_rest_length d _ key rest Hc Hk) as LK.
  set (K := firstn (List.length key) cs) in *. set (R := skipn (List.length key) cs) in *. assert (EK : cs = K ++ R) by (symmetry; apply firstn_skipn).
  assert (IK : incl K (columns_of d (td_id t)) /\ incl R (columns_of d (td_id t))) by (rewrite EK in Ic; split; intros x Hx; apply Ic, in_or_app; [now left|now right]). destruct IK as [IK IR].
  assert (LKK : List.length K = List.length key) by (unfold K; rewrite firstn_length; lia). assert (LR : List.length R = List.length rest) by (unfold R; rewrite skipn_length; lia).
  assert (A1 : Forall2 alike K0 K) by (apply all_alike; [lia|auto]). assert (A2 : Forall2 alike R0 R) by (apply all_alike; [lia|auto]).
  assert (HA : Forall2 alike_slot (key_slots K0 R0) (key_slots K R)).
  { unfold key_slots. apply Forall2_app; [now apply users_alike|]. constructor; [reflexivity|]. constructor; [reflexivity|]. now apply users_alike. }
  apply (file_alike rt _ _ _ _ _ HA) in HF.
  assert (HP1 : forall P : column_def -> Prop, Forall P (columns_of d (td_id t)) -> forall l, incl l (columns_of d (td_id t)) -> Forall P l) by (intros P H l Hl; rewrite Forall_forall in *; auto).
  pose proof (table_ids d (td_id t)) as Hids.
  assert (Hmap : forall cs, Forall (fun c => cd_table c = td_id t) cs -> Forall (fun c => c_table c = td_id t) (map descriptor cs)) by (intros l H; apply Forall_map; exact H).
  destruct (tool_with fuel rt files op sys tfile d sys_pages t e db tb (key_slots K R) pages vss tm) as [lines [E H]]; try assumption; try rewrite Ec.
  - apply leading_slots; now apply HP1.
  - apply Forall_app. split; [apply Hmap; now apply HP1|]. constructor; [reflexivity|]. constructor; [reflexivity|]. apply Hmap. now apply HP1.
  - unfold key_slots. rewrite !map_app, !nullable_app, !nullable_users. change (nullable_count (map slot_layout [Own 6; Own 7])) with 0.
    assert (A : Forall2 alike (columns_of d (td_id t)) cs) by (apply all_alike; [lia|auto]). rewrite (nullable_alike _ _ A), EK, filter_app. unfold zlen. rewrite app_length. lia.
  - rewrite !app_length, !map_length. cbn [List.length]. assert (columns_of d (td_id t) <> []) by assumption. destruct (columns_of d (td_id t)); [contradiction|]. cbn [List.length] in *. lia.
  - destruct (columns_of d (td_id t)) as [|c cl] eqn:Ecl; [contradiction|]. unfold key_slots. destruct K as [|k K']; [destruct R as [|k R']; [cbn [List.length] in *; lia|]|].
    + exists k. apply in_or_app. right. apply in_or_app. right. now left.
    + exists k. now left.
  - exists lines. split; [exact E|exact H].
Qed.

(** If all columns have one type: for every key, in whatever place, every row
    is printed with its values in the order of the record - key columns first -
    and so is right exactly if this makes no difference. *)
Theorem C82_one_type_refuted : forall fuel rt files op sys tfile d sys_pages t db tb ss pages rows key rest,
  tool_input rt (is_deleted op) d sys_pages t db tb ss pages rows -> has_key d (td_id t) key rest ->
  (forall c c', In c (columns_of d (td_id t)) -> In c' (columns_of d (td_id t)) -> alike c c') ->
  files sys = Some (map IoBytes sys_pages) -> files tfile = Some (map IoBytes pages) -> (Z.to_nat 16384 < fuel)%nat ->
  exists lines, FromDataFile fuel rt files op sys tfile db tb = (lines, Ok tt)
    /\ Forall2 (fun r line => read_replace line = Some (db, tb, values (key ++ rest) r)
         /\ (read_replace line = Some (db, tb, values (columns_of d (td_id t)) r) <-> values (key ++ rest) r = values (columns_of d (td_id t)) r)) rows lines.
Proof.
  intros fuel rt files op sys tfile d sys_pages t db tb ss pages rows key rest [Hs [Hc [Hnd [Ht [Hnm [Hdb [Hb1 [Hb2 [Hne [Hro [Hss HF]]]]]]]]]]] Hk Hone F1 F2 Hfuel.
  assert (Es : ss = key_slots key rest).
  { destruct Hss as [[Hno _]|[key' [rest' [Hkey ->]]]]; [exfalso; exact (one_index d (td_id t) _ _ Hc Hk Hno)|]. destruct (same_key d (td_id t) _ _ _ _ Hc Hkey Hk) as [-> ->]. reflexivity. }
  rewrite Es, users_keyed in HF.
  assert (Ik : incl key (columns_of d (td_id t))) by (destruct Hk as [i [_ [_ [_ [X _]]]]]; exact X).
  assert (Ir : incl rest (columns_of d (td_id t))) by (destruct Hk as [i [_ [_ [_ [_ ->]]]]]; apply incl_filter).
  destruct (one_type_lines fuel rt files op sys tfile d sys_pages t db tb pages (map (values (key ++ rest)) rows) key rest key rest) as [lines [E H]]; try assumption; try reflexivity.
  exists lines. split; [exact E|]. clear - H. revert lines H. induction rows as [|r rows IH]; intros lines H; inversion H as [|? line ? lines' H1 H2]; subst; constructor; [|now apply IH].
  split; [exact H1|]. rewrite H1. split; [intro X; now injection X|intros ->; reflexivity].
Qed.
Print Assumptions C82_one_type_refuted.
Example C82_one_type_case : forall rt,
  tool_input rt (is_deleted (txt "PrintData")) dict3 pages3 (mkTableDef (txt "test/m") 25 9) (txt "test") (txt "m") (key_slots [c_y] [c_u]) [page_m] [row_m]
  /\ has_key dict3 25 [c_y] [c_u] /\ (forall c c', In c (columns_of dict3 25) -> In c' (columns_of dict3 25) -> alike c c')
  /\ values ([c_y] ++ [c_u]) row_m <> values (columns_of dict3 25) row_m.
Proof.
  intro rt. destruct (C82_case2 rt) as [_ [_ [H [K _]]]]. split; [exact H|]. split; [exact K|]. change (columns_of dict3 25) with [c_u; c_y]. split; [|discriminate].
  intros c c' [<-|[<-|[]]] [<-|[<-|[]]]; now repeat split.
Qed.

(** Running the statements for such a table in an empty table: it ends with the
    rows rearranged, not with its rows. *)
Theorem C92_one_type_refuted : forall fuel rt files op sys tfile d sys_pages t db tb ss pages rows key rest ps,
  op <> txt "RecoveryData" -> tool_input rt false d sys_pages t db tb ss pages rows -> has_key d (td_id t) key rest ->
  (forall c c', In c (columns_of d (td_id t)) -> In c' (columns_of d (td_id t)) -> alike c c') ->
  files sys = Some (map IoBytes sys_pages) -> files tfile = Some (map IoBytes pages) -> (Z.to_nat 16384 < fuel)%nat ->
  exists lines s, FromDataFile fuel rt files op sys tfile db tb = (lines, Ok tt) /\ load ps db tb lines [] = Some s
    /\ incl s (map (values (key ++ rest)) rows)
    /\ (no_clash ps (map (values (key ++ rest)) rows) -> s = map (values (key ++ rest)) rows).
Proof.
  intros fuel rt files op sys tfile d sys_pages t db tb ss pages rows key rest ps Hop HI Hk Hone F1 F2 Hfuel.
  assert (Ed : is_deleted op = false) by (unfold is_deleted; destruct (list_eq_dec Z.eq_dec op (txt "RecoveryData")); [contradiction|reflexivity]). rewrite <- Ed in HI.
  destruct (C82_one_type_refuted fuel rt files op sys tfile d sys_pages t db tb ss pages rows key rest HI Hk Hone F1 F2 Hfuel) as [lines [E H]].
  exists lines, (puts ps (map (values (key ++ rest)) rows) []). split; [exact E|]. split; [apply load_all|split].
  - clear - H. induction H as [|r line rows lines [H _] _ IH]; constructor; assumption.
  - intros x Hx. destruct (puts_in _ _ _ _ Hx) as [X|[[] _]]. exact X.
  - intro Hn. now rewrite puts_distinct.
Qed.
Print Assumptions C92_one_type_refuted.
Example C92_one_type_case : no_clash [1%nat] (map (values ([c_y] ++ [c_u])) [row_m]) /\ map (values ([c_y] ++ [c_u])) [row_m] <> map (values (columns_of dict3 25)) [row_m].
Proof.
  split; [|discriminate]. intros a x b y c E. apply (f_equal (@List.length _)) in E. cbn in E. rewrite app_length in E. cbn in E. rewrite app_length in E. cbn in E. lia.
Qed.
