(** Proofs about the dictionary functions. *)
From Coq Require Import ZifyBool Permutation.
From Verif Require Import GoBase Utils Ibdata SpecInno SpecText SpecSql SpecRecord SpecRow SpecPage SpecDict PBase PWire PValue PText PRec PPage PSql PFile.
Local Open Scope list_scope.
Ltac Zify.zify_post_hook ::= Z.div_mod_to_equations.

(** * Maps *)
Lemma mget_mset {V} (m : gomap V) k v k' : mget (mset m k v) k' = if k' =? k then Some v else mget m k'.
Proof.
  induction m as [|[a w] m IH]; cbn [mset mget].
  - destruct (k' =? k); reflexivity.
  - destruct (Z.eqb_spec k a) as [->|N]; cbn [mget].
    + destruct (k' =? a); reflexivity.
    + rewrite IH. destruct (Z.eqb_spec k' a) as [->|]; [|reflexivity]. destruct (Z.eqb_spec a k); [congruence|reflexivity].
Qed.
Lemma mset_keys {V} (m : gomap V) k v : forall x, In x (map fst (mset m k v)) <-> x = k \/ In x (map fst m).
Proof.
  intro x. induction m as [|[a w] m IH]; cbn [mset map fst].
  - cbn. intuition.
  - destruct (Z.eqb_spec k a) as [->|N]; cbn [map fst]; cbn [In]; [intuition|]. rewrite IH. intuition.
Qed.
Lemma mset_nodup {V} (m : gomap V) k v : NoDup (map fst m) -> NoDup (map fst (mset m k v)).
Proof.
  induction m as [|[a w] m IH]; cbn [mset map fst]; intro H.
  - constructor; [intros []|constructor].
  - inversion H as [|? ? Hn H']; subst. destruct (Z.eqb_spec k a) as [->|N]; cbn [map fst]; constructor; auto.
    intro X. apply mset_keys in X. destruct X; [congruence|contradiction].
Qed.
Lemma mset_in {V} (m : gomap V) k v x w : In (x, w) (mset m k v) -> (x = k /\ w = v) \/ (In (x, w) m).
Proof.
  induction m as [|[a u] m IH]; cbn [mset].
  - intros [H|[]]. injection H as <- <-. now left.
  - destruct (Z.eqb_spec k a) as [->|N]; cbn [In].
    + intros [H|H]; [injection H as <- <-; now left|right; now right].
    + intros [H|H]; [right; now left|]. destruct (IH H) as [E|E]; [now left|right; now right].
Qed.
Lemma mget_in {V} (m : gomap V) k v : mget m k = Some v -> In (k, v) m.
Proof.
  induction m as [|[a w] m IH]; cbn [mget]; [discriminate|]. destruct (Z.eqb_spec k a) as [->|N]; [intro H; injection H as ->; now left|intro H; right; now apply IH].
Qed.
Lemma in_mget {V} (m : gomap V) k v : NoDup (map fst m) -> In (k, v) m -> mget m k = Some v.
Proof.
  induction m as [|[a w] m IH]; cbn [map fst mget]; intros Hn Hi; [contradiction|]. inversion Hn as [|? ? Ha Hn']; subst.
  destruct Hi as [E|Hi]; [injection E as -> ->; now rewrite Z.eqb_refl|]. destruct (Z.eqb_spec k a) as [->|]; [|now apply IH].
  exfalso. apply Ha. change a with (fst (a, v)). now apply in_map.
Qed.
Lemma mget_none {V} (m : gomap V) k : mget m k = None <-> ~ In k (map fst m).
Proof.
  induction m as [|[a w] m IH]; cbn [mget map fst In]; [tauto|]. destruct (Z.eqb_spec k a) as [->|N]; [split; [discriminate|tauto]|].
  rewrite IH. intuition.
Qed.
Lemma mget_perm {V} (m m' : gomap V) k : NoDup (map fst m) -> Permutation m m' -> mget m k = mget m' k.
Proof.
  intros Hn Hp. assert (Hn' : NoDup (map fst m')) by (eapply Permutation_NoDup; [apply Permutation_map; exact Hp|exact Hn]).
  destruct (mget m k) as [v|] eqn:E.
  - symmetry. apply in_mget; [exact Hn'|]. eapply Permutation_in; [exact Hp|]. now apply mget_in.
  - symmetry. apply mget_none. apply mget_none in E. intro X. apply E. eapply Permutation_in; [symmetry; apply Permutation_map; exact Hp|exact X].
Qed.

(** * Rows *)
Lemma as_uint_value row i n : holds_value row i (VUint n) -> as_uint row (Z.of_nat i) = Ok n.
Proof.
  unfold holds_value, as_uint, index. destruct (nth_error row i) as [c|] eqn:E; [|discriminate]. cbn [option_map]. intro H. injection H as H.
  assert (i < List.length row)%nat by (apply nth_error_Some; congruence).
  replace ((0 <=? Z.of_nat i) && (Z.of_nat i <? len row)) with true by (unfold len; lia).
  rewrite Nat2Z.id, E. cbn [bind]. now rewrite H.
Qed.
Lemma as_str_value row i s : holds_value row i (VStr s) -> as_str row (Z.of_nat i) = Ok s.
Proof.
  unfold holds_value, as_str, index. destruct (nth_error row i) as [c|] eqn:E; [|discriminate]. cbn [option_map]. intro H. injection H as H.
  assert (i < List.length row)%nat by (apply nth_error_Some; congruence).
  replace ((0 <=? Z.of_nat i) && (Z.of_nat i <? len row)) with true by (unfold len; lia).
  rewrite Nat2Z.id, E. cbn [bind]. now rewrite H.
Qed.
Lemma split_slashless s : ~ In 47 s -> split_on 47 s = [s].
Proof.
  induction s as [|c s IH]; intro H; [reflexivity|]. cbn [split_on]. destruct (Z.eqb_spec c 47) as [->|]; [exfalso; apply H; now left|].
  rewrite IH; [reflexivity|]. intro X. apply H. now right.
Qed.
Lemma split_slash a b : ~ In 47 a -> split_on 47 (a ++ 47 :: b) = a :: split_on 47 b.
Proof.
  induction a as [|c s IH]; intro H; [reflexivity|]. cbn [split_on app]. destruct (Z.eqb_spec c 47) as [->|]; [exfalso; apply H; now left|].
  rewrite IH; [reflexivity|]. intro X. apply H. now right.
Qed.
Lemma contains_in k s : contains_byte k s = true <-> In k s.
Proof. induction s as [|c s IH]; cbn [contains_byte In]; [split; [discriminate|tauto]|]. rewrite orb_true_iff, IH, Z.eqb_eq. tauto. Qed.

Lemma add_table tm row name id space db tb :
  tables_row row name id space ->
  (name = db ++ 47 :: tb /\ ~ In 47 db /\ ~ In 47 tb) \/ (name = tb /\ db = [] /\ ~ In 47 tb) ->
  addTable tm row = Ok (mset tm id (mkTable db tb [] [] 0 space)).
Proof.
  intros [H0 [H3 H9]] Hn. unfold addTable. pose proof (as_str_value _ _ _ H0) as E0. pose proof (as_uint_value _ _ _ H3) as E3. pose proof (as_uint_value _ _ _ H9) as E9.
  change (Z.of_nat 0) with 0 in E0. change (Z.of_nat 3) with 3 in E3. change (Z.of_nat 9) with 9 in E9.
  rewrite E0. cbn [bind]. destruct Hn as [[-> [Hd Ht]]|[-> [-> Ht]]].
  - replace (contains_byte 47 (db ++ 47 :: tb)) with true by (symmetry; apply contains_in, in_or_app; right; now left).
    rewrite split_slash, split_slashless by assumption. cbn [bind index]. unfold index. cbn. rewrite E3. cbn [bind]. now rewrite E9.
  - replace (contains_byte 47 tb) with false by (symmetry; apply not_true_iff_false; rewrite contains_in; exact Ht).
    cbn [bind]. rewrite E3. cbn [bind]. now rewrite E9.
Qed.

(** * Type words *)
Lemma bit_test p k : 0 <= k -> (Z.land p (2 ^ k) =? 0) = negb (Z.testbit p k).
Proof.
  intro Hk. destruct (Z.testbit p k) eqn:E; cbn [negb].
  - apply Z.eqb_neq. intro X. apply (f_equal (fun z => Z.testbit z k)) in X. rewrite Z.land_spec, E, Z.pow2_bits_true, Z.bits_0 in X by lia. discriminate.
  - apply Z.eqb_eq. apply Z.bits_inj'. intros n Hn. rewrite Z.land_spec, Z.bits_0. destruct (Z.eq_dec n k) as [->|N]; [now rewrite E|].
    rewrite Z.pow2_bits_false by lia. apply andb_false_r.
Qed.
Definition new_column (d : column_def) : Column :=
  mkColumn (cd_name d) (cd_mtype d) (cd_prtype d mod 256) (cd_pos d) (if cd_mtype d =? 4 then 0 else cd_len d) VNil
    (negb (Z.testbit (cd_prtype d) 8)) ((cd_mtype d =? 5) && Z.testbit (cd_prtype d) 10) (Z.testbit (cd_prtype d) 9) (cd_table d).
Lemma new_column_ok d : column_ok d (new_column d).
Proof.
  unfold column_ok, new_column. cbn. repeat (split; [reflexivity|]). rewrite andb_true_iff, Z.eqb_eq. reflexivity.
Qed.
Definition grown (t : Table) (c : Column) : Table :=
  mkTable (t_db t) (t_name t) (t_columns t ++ [c]) (t_indexes t) (if c_null c then t_nullcount t + 1 else t_nullcount t) (t_space t).
Lemma add_column tm row d : columns_row row d ->
  addColumn tm row = Ok (match mget tm (cd_table d) with None => tm | Some t => mset tm (cd_table d) (grown t (new_column d)) end).
Proof.
  intros [H0 [H1 [H4 [H5 [H6 H7]]]]]. unfold addColumn.
  apply as_uint_value in H0, H1, H5, H6, H7. apply as_str_value in H4.
  change (Z.of_nat 0) with 0 in H0. change (Z.of_nat 1) with 1 in H1. change (Z.of_nat 4) with 4 in H4. change (Z.of_nat 5) with 5 in H5.
  change (Z.of_nat 6) with 6 in H6. change (Z.of_nat 7) with 7 in H7.
  rewrite H0. cbn [bind]. destruct (mget tm (cd_table d)) as [t|]; [|reflexivity].
  rewrite H6. cbn [bind]. rewrite H5. cbn [bind]. rewrite H7.
  replace (Z.land (cd_prtype d) 256 =? 0) with (negb (Z.testbit (cd_prtype d) 8)) by (symmetry; apply (bit_test _ 8); lia).
  replace (Z.land (cd_prtype d) 512 =? 0) with (negb (Z.testbit (cd_prtype d) 9)) by (symmetry; apply (bit_test _ 9); lia).
  replace (Z.land (cd_prtype d) 1024 =? 0) with (negb (Z.testbit (cd_prtype d) 10)) by (symmetry; apply (bit_test _ 10); lia).
  rewrite !negb_involutive.
  change 255 with (Z.ones 8). rewrite Z.land_ones by lia. change (2 ^ 8) with 256.
  unfold DATA_BINARY, DATA_BLOB.
  replace (if negb (cd_mtype d =? 4) then Ok (cd_len d) else Ok 0) with (Ok (if cd_mtype d =? 4 then 0 else cd_len d)) by (destruct (cd_mtype d =? 4); reflexivity).
  cbn [bind]. rewrite H4. cbn [bind]. rewrite H1. reflexivity.
Qed.

(** * Counting nullable columns *)
Lemma null_count_app a b : null_count (a ++ b) = null_count a + null_count b.
Proof. unfold null_count. rewrite filter_app. apply len_app. Qed.
Lemma counted_grown t c : t_nullcount t = null_count (t_columns t) -> t_nullcount (grown t c) = null_count (t_columns (grown t c)).
Proof.
  intro H. unfold grown. cbn [t_nullcount t_columns]. rewrite null_count_app. unfold null_count at 2. cbn [filter]. destruct (c_null c); cbn; lia.
Qed.
Lemma counted_mset tm id t : counted tm -> t_nullcount t = null_count (t_columns t) -> counted (mset tm id t).
Proof. intros H Ht i u Hin. apply mset_in in Hin as [[_ ->]|Hin]; [exact Ht|now apply (H i)]. Qed.
Ltac breakb H := repeat match type of H with
  | bind ?e _ = Ok _ => let x := fresh "x" in let E := fresh "E" in destruct e as [x| |] eqn:E; cbn [bind] in H; try discriminate H
  end.
Lemma add_column_shape tm row tm' : addColumn tm row = Ok tm' ->
  tm' = tm \/ exists id t c, mget tm id = Some t /\ tm' = mset tm id (grown t c).
Proof.
  unfold addColumn. intro H. destruct (as_uint row 0) as [id| |]; cbn [bind] in H; try discriminate. destruct (mget tm id) as [t|] eqn:E; [|injection H as <-; now left].
  destruct (as_uint row 6) as [p| |]; cbn [bind] in H; try discriminate.
  destruct (as_uint row 5) as [m| |]; cbn [bind] in H; try discriminate.
  match type of H with bind ?e _ = _ => destruct e as [f| |]; cbn [bind] in H; try discriminate end.
  destruct (as_str row 4) as [n| |]; cbn [bind] in H; try discriminate.
  destruct (as_uint row 1) as [q| |]; cbn [bind] in H; try discriminate.
  injection H as <-. right. eexists id, t, (mkColumn n m (Z.land p 255) q f VNil _ _ _ id). split; [exact E|]. reflexivity.
Qed.
Lemma add_column_counted tm row tm' : addColumn tm row = Ok tm' -> counted tm -> counted tm'.
Proof.
  intros H Hc. apply add_column_shape in H as [->|[id [t [c [Hg ->]]]]]; [exact Hc|]. apply counted_mset; [exact Hc|].
  apply counted_grown. apply (Hc id). now apply mget_in.
Qed.
Lemma add_columns_counted rows : forall tm tm', addAllColumns tm rows = Ok tm' -> counted tm -> counted tm'.
Proof.
  induction rows as [|r rs IH]; intros tm tm' H Hc; cbn [addAllColumns] in H; [injection H as <-; exact Hc|].
  destruct (addColumn tm r) as [tm1| |] eqn:E; cbn [bind] in H; try discriminate. eapply IH; [exact H|]. eapply add_column_counted; eauto.
Qed.

(** * Internal columns *)
Lemma add_at (a b : list Column) c n : n = len a -> addColumns (a ++ b) n c = Ok (a ++ c :: b).
Proof.
  intros ->. unfold addColumns. rewrite slice_from_app_eq by reflexivity. cbn [bind]. rewrite slice_to_app by reflexivity. reflexivity.
Qed.
Lemma beq_primary ix : beq (ix_name ix) (bs "PRIMARY") = true <-> is_primary ix.
Proof. apply beq_eq. Qed.
Lemma beq_generated ix : beq (ix_name ix) (bs "GEN_CLUST_INDEX") = true <-> is_generated ix.
Proof. apply beq_eq. Qed.
Lemma primary_not_generated ix : is_primary ix -> ~ is_generated ix.
Proof. unfold is_primary, is_generated. intros -> H. discriminate H. Qed.
Definition internal_step (id : Z) (ix : Index) (columns : list Column) : res (list Column) :=
  if beq (ix_name ix) (bs "PRIMARY") then
    columns <- addColumns columns (i64 (ix_nfields ix)) (addInternalColumn (bs "DB_TRX_ID") id (ix_nfields ix)) ;;
    addColumns columns (i64 (ix_nfields ix + 1)) (addInternalColumn (bs "DB_ROLL_PTR") id (u64 (ix_nfields ix + 1)))
  else if beq (ix_name ix) (bs "GEN_CLUST_INDEX") then
    columns <- addColumns columns 0 (addInternalColumn (bs "DB_ROW_ID") id 0) ;;
    columns <- addColumns columns 1 (addInternalColumn (bs "DB_TRX_ID") id 1) ;;
    addColumns columns 2 (addInternalColumn (bs "DB_ROLL_PTR") id 2)
  else Ok columns.
Lemma internal_unfold id k ix ixs columns :
  addInternal_table id ((k, ix) :: ixs) columns = (cs <- internal_step id ix columns ;; addInternal_table id ixs cs).
Proof. reflexivity. Qed.
Lemma step_primary id ix a b : is_primary ix -> ix_nfields ix = len a -> len a < 2 ^ 32 ->
  internal_step id ix (a ++ b) = Ok (a ++ internal_column id "DB_TRX_ID" (len a) 6 :: internal_column id "DB_ROLL_PTR" (len a + 1) 7 :: b).
Proof.
  intros Hp Hn Hl. pose proof (len_nonneg a). unfold internal_step. rewrite (proj2 (beq_primary ix) Hp), Hn. rewrite u64_id by lia.
  rewrite !i64_id by lia. rewrite add_at by reflexivity. cbn [bind].
  replace (a ++ addInternalColumn (bs "DB_TRX_ID") id (len a) :: b) with ((a ++ [addInternalColumn (bs "DB_TRX_ID") id (len a)]) ++ b) by (rewrite <- app_assoc; reflexivity).
  rewrite add_at by (rewrite len_app; reflexivity). rewrite <- app_assoc. reflexivity.
Qed.
Lemma step_generated id ix b : is_generated ix ->
  internal_step id ix b = Ok (internal_column id "DB_ROW_ID" 0 6 :: internal_column id "DB_TRX_ID" 1 6 :: internal_column id "DB_ROLL_PTR" 2 7 :: b).
Proof.
  intro Hg. unfold internal_step. rewrite (proj2 (beq_generated ix) Hg).
  replace (beq (ix_name ix) (bs "PRIMARY")) with false.
  2:{ symmetry. apply not_true_iff_false. intro H. apply beq_primary in H. now apply (primary_not_generated ix). }
  change b with ([] ++ b) at 1. rewrite add_at by reflexivity. cbn [bind app].
  change (?x :: b) with ([x] ++ b) at 1. rewrite add_at by reflexivity. cbn [bind app].
  change (?x :: ?y :: b) with ([x; y] ++ b) at 1. rewrite add_at by reflexivity. reflexivity.
Qed.
Lemma step_other id ix b : ~ clustered ix -> internal_step id ix b = Ok b.
Proof.
  intro H. unfold internal_step.
  replace (beq (ix_name ix) (bs "PRIMARY")) with false by (symmetry; apply not_true_iff_false; rewrite beq_primary; unfold clustered in H; tauto).
  replace (beq (ix_name ix) (bs "GEN_CLUST_INDEX")) with false by (symmetry; apply not_true_iff_false; rewrite beq_generated; unfold clustered in H; tauto).
  reflexivity.
Qed.
Lemma internal_others id ixs b : (forall k ix, In (k, ix) ixs -> ~ clustered ix) -> addInternal_table id ixs b = Ok b.
Proof.
  induction ixs as [|[k ix] ixs IH]; intro H; [reflexivity|]. rewrite internal_unfold, step_other by (apply (H k); now left).
  cbn [bind]. apply IH. intros k' ix' Hin. apply (H k'). now right.
Qed.
Lemma internal_one id k ix ixs cols r : at_most_one (fun x => clustered (snd x)) ixs -> In (k, ix) ixs -> clustered ix ->
  internal_step id ix cols = Ok r -> addInternal_table id ixs cols = Ok r.
Proof.
  intros Ho Hin Hc Hs. apply in_split in Hin as [l1 [l2 ->]].
  assert (H1 : forall k' ix', In (k', ix') l1 -> ~ clustered ix').
  { intros k' ix' Hi Hc'. apply in_split in Hi as [a [b ->]]. apply (Ho a (k', ix') b (k, ix) l2); [rewrite <- app_assoc; reflexivity|exact Hc'|exact Hc]. }
  assert (H2 : forall k' ix', In (k', ix') l2 -> ~ clustered ix').
  { intros k' ix' Hi Hc'. apply in_split in Hi as [a [b ->]]. now apply (Ho l1 (k, ix) a (k', ix') b). }
  clear Ho. induction l1 as [|[k1 ix1] l1 IH]; cbn [app].
  - rewrite internal_unfold, Hs. cbn [bind]. now apply internal_others.
  - rewrite internal_unfold, step_other by (apply (H1 k1); now left). cbn [bind]. apply IH. intros k' ix' Hi. apply (H1 k'). now right.
Qed.
(** What a table's columns should be after the internal ones are added. *)
Lemma add_ok cols n c cs : addColumns cols n c = Ok cs -> exists a b, cols = a ++ b /\ cs = a ++ c :: b.
Proof.
  unfold addColumns. intro H. destruct (slice_from cols n) as [r| |] eqn:E1; cbn [bind] in H; try discriminate.
  destruct (slice_to cols n) as [f| |] eqn:E2; cbn [bind] in H; try discriminate. injection H as <-.
  exists f, r. split; [|reflexivity]. unfold slice_from in E1. unfold slice_to in E2.
  destruct ((0 <=? n) && (n <=? len cols)); try discriminate. injection E1 as <-. injection E2 as <-. symmetry. apply firstn_skipn.
Qed.
Lemma add_count cols n c cs : addColumns cols n c = Ok cs -> c_null c = false -> null_count cs = null_count cols.
Proof.
  intros H Hc. apply add_ok in H as [a [b [-> ->]]]. rewrite !null_count_app. change (c :: b) with ([c] ++ b). rewrite null_count_app.
  unfold null_count at 2. cbn [filter]. rewrite Hc. cbn. lia.
Qed.
Lemma internal_count id ixs : forall cols cs, addInternal_table id ixs cols = Ok cs -> null_count cs = null_count cols.
Proof.
  induction ixs as [|[k ix] ixs IH]; intros cols cs H; [injection H as <-; reflexivity|]. rewrite internal_unfold in H.
  destruct (internal_step id ix cols) as [c1| |] eqn:E; cbn [bind] in H; try discriminate. rewrite (IH _ _ H). clear H IH.
  unfold internal_step in E. destruct (beq (ix_name ix) _).
  - match type of E with bind ?e _ = _ => destruct e as [c2| |] eqn:E2; cbn [bind] in E; try discriminate end.
    rewrite (add_count _ _ _ _ E), (add_count _ _ _ _ E2); reflexivity.
  - destruct (beq (ix_name ix) _); [|injection E as <-; reflexivity].
    match type of E with bind ?e _ = _ => destruct e as [c2| |] eqn:E2; cbn [bind] in E; try discriminate end.
    match type of E with bind ?e _ = _ => destruct e as [c3| |] eqn:E3; cbn [bind] in E; try discriminate end.
    rewrite (add_count _ _ _ _ E), (add_count _ _ _ _ E3), (add_count _ _ _ _ E2); reflexivity.
Qed.

(** * Going over all tables *)
Definition each (f : Z -> Table -> res (list Column)) : gomap Table -> res (gomap Table) :=
  fix go tm := match tm with
  | [] => Ok []
  | (id, t) :: tm' => cs <- f id t ;; rest <- go tm' ;; Ok ((id, with_columns t cs) :: rest)
  end.
Lemma each_move tm : movePrimaryKeyFirst tm = each (fun _ t => movePK_table (t_indexes t) (t_columns t)) tm.
Proof. induction tm as [|[id t] tm IH]; [reflexivity|]. cbn [movePrimaryKeyFirst each]. now rewrite IH. Qed.
Lemma each_internal tm : addInternalColumns tm = each (fun id t => addInternal_table id (t_indexes t) (t_columns t)) tm.
Proof. induction tm as [|[id t] tm IH]; [reflexivity|]. cbn [addInternalColumns each]. now rewrite IH. Qed.
Definition updated (f : Z -> Table -> res (list Column)) (a b : Z * Table) : Prop :=
  exists cs, f (fst a) (snd a) = Ok cs /\ b = (fst a, with_columns (snd a) cs).
Lemma each_spec f tm tm' : each f tm = Ok tm' <-> Forall2 (updated f) tm tm'.
Proof.
  split.
  - revert tm'. induction tm as [|[id t] tm IH]; intros tm' H; cbn [each] in H; [injection H as <-; constructor|].
    destruct (f id t) as [cs| |] eqn:E; cbn [bind] in H; try discriminate. destruct (each f tm) as [r| |]; cbn [bind] in H; try discriminate.
    injection H as <-. constructor; [exists cs; split; [exact E|reflexivity]|]. now apply IH.
  - induction 1 as [|[id t] b tm tm' [cs [E ->]] _ IH]; [reflexivity|]. cbn [each fst snd] in *. rewrite E. cbn [bind]. now rewrite IH.
Qed.

(** * Moving the key *)
Lemma name_eq (a b : bytes) : beq a b = true <-> a = b.
Proof. apply beq_eq. Qed.
Lemma index_nth {A} (l : list A) i x : nth_error l i = Some x -> index l (Z.of_nat i) = Ok x.
Proof.
  intro H. assert (i < List.length l)%nat by (apply nth_error_Some; congruence). unfold index.
  replace ((0 <=? Z.of_nat i) && (Z.of_nat i <? len l)) with true by (unfold len; lia). now rewrite Nat2Z.id, H.
Qed.
Lemma inner_skip fields : forall j i cols c, nth_error cols i = Some c -> (forall f, In f fields -> fd_name f <> c_name c) ->
  move_inner fields j i cols = Ok cols.
Proof.
  induction fields as [|f fs IH]; intros j i cols c Hc Hn; [reflexivity|]. cbn [move_inner]. rewrite (index_nth _ _ _ Hc). cbn [bind].
  replace (beq (fd_name f) (c_name c)) with false by (symmetry; apply not_true_iff_false; rewrite name_eq; apply Hn; now left).
  cbn [bind]. eapply IH; [exact Hc|]. intros g Hg. apply Hn. now right.
Qed.
Lemma inner_app fs1 fs2 j i cols c : nth_error cols i = Some c -> (forall f, In f fs1 -> fd_name f <> c_name c) ->
  move_inner (fs1 ++ fs2) j i cols = move_inner fs2 (List.length fs1 + j) i cols.
Proof.
  revert j. induction fs1 as [|f fs IH]; intros j Hc Hn; [reflexivity|]. cbn [move_inner app]. rewrite (index_nth _ _ _ Hc). cbn [bind].
  replace (beq (fd_name f) (c_name c)) with false by (symmetry; apply not_true_iff_false; rewrite name_eq; apply Hn; now left).
  cbn [bind]. rewrite IH; [cbn [List.length]; f_equal; lia|exact Hc|]. intros g Hg. apply Hn. now right.
Qed.
Lemma outer_skip fields : forall n i cols, (forall j c, (i <= j)%nat -> nth_error cols j = Some c -> forall f, In f fields -> fd_name f <> c_name c) ->
  (i + n <= List.length cols)%nat -> move_outer n i fields cols = Ok cols.
Proof.
  induction n as [|n IH]; intros i cols H Hl; [reflexivity|]. cbn [move_outer].
  destruct (nth_error cols i) as [c|] eqn:E; [|apply nth_error_None in E; lia].
  rewrite (inner_skip _ _ _ _ c E) by (intros; eapply H; eauto). cbn [bind]. apply IH; [|lia]. intros j d Hj. apply H. lia.
Qed.
Lemma names_distinct {A} (l : list A) i j x : NoDup l -> nth_error l i = Some x -> nth_error l j = Some x -> i = j.
Proof.
  intros Hn Hi Hj. eapply (proj1 (NoDup_nth_error l)); [exact Hn| |congruence]. apply nth_error_Some. congruence.
Qed.
Lemma in_nth_error {A} (l : list A) x : In x l -> exists i, nth_error l i = Some x.
Proof. apply In_nth_error. Qed.
(** A key made of the first columns, in order, is reversed. *)
Lemma move_prefix_steps K R fields : NoDup (map c_name (K ++ R)) -> map fd_name fields = map c_name K ->
  forall m i, (i + m = List.length K)%nat ->
  move_outer (m + List.length R) i fields (rev (firstn i K) ++ skipn i K ++ R) = Ok (rev K ++ R).
Proof.
  intros Hd Hf. induction m as [|m IH]; intros i Hi.
  - rewrite Nat.add_0_r in Hi. subst i. cbn [plus]. rewrite firstn_all, skipn_all. cbn [app]. apply outer_skip; [|rewrite app_length, rev_length; lia].
    intros j c Hj Hc f Hin Heq. rewrite nth_error_app2 in Hc by (rewrite rev_length; lia). rewrite rev_length in Hc.
    apply (in_map fd_name) in Hin. rewrite Hf, Heq in Hin. rewrite map_app in Hd.
    apply nth_error_In in Hc. apply (in_map c_name) in Hc. clear - Hd Hin Hc.
    induction (map c_name K) as [|x l IH]; [contradiction|]. cbn [app] in Hd. inversion Hd; subst. destruct Hin as [->|Hin]; [|now apply IH].
    apply H1. apply in_or_app. now right.
  - cbn [plus move_outer]. assert (HiK : (i < List.length K)%nat) by lia.
    destruct (nth_error K i) as [k|] eqn:Ek; [|apply nth_error_None in Ek; lia].
    assert (HK : skipn i K = k :: skipn (S i) K).
    { clear - Ek. revert i Ek. induction K as [|x K IHK]; intros [|i] E; cbn in *; try discriminate; [now injection E as ->|now apply IHK]. }
    assert (Hfi : List.length (rev (firstn i K)) = i) by (rewrite rev_length, firstn_length_le; lia).
    assert (Hlf : List.length fields = List.length K) by (rewrite <- (map_length fd_name fields), Hf; apply map_length).
    destruct (nth_error fields i) as [f|] eqn:Ef; [|apply nth_error_None in Ef; lia].
    assert (Hfk : fd_name f = c_name k).
    { apply (map_nth_error fd_name) in Ef. apply (map_nth_error c_name) in Ek. rewrite Hf in Ef. congruence. }
    apply nth_error_split in Ef as [f1 [f2 [Efs Hf1]]].
    assert (HnK : NoDup (map c_name K)).
    { rewrite map_app in Hd. clear - Hd. induction (map c_name K) as [|x l IH]; [constructor|]. cbn [app] in Hd. inversion Hd; subst. constructor; [|now apply IH].
      intro X. apply H1. apply in_or_app. now left. }
    assert (Hcol : nth_error (rev (firstn i K) ++ skipn i K ++ R) i = Some k).
    { rewrite nth_error_app2 by lia. rewrite Hfi, Nat.sub_diag, HK. reflexivity. }
    assert (Hname : forall j g, nth_error fields j = Some g -> fd_name g = c_name k -> j = i).
    { intros j g Hg E. apply (map_nth_error fd_name) in Hg. rewrite Hf, E in Hg. apply (map_nth_error c_name) in Ek. eapply names_distinct; eauto. }
    rewrite Efs. rewrite (inner_app f1 (f :: f2) 0 i _ k Hcol).
    2:{ intros g Hg E. apply in_nth_error in Hg as [j Hj]. assert (j < List.length f1)%nat by (apply nth_error_Some; congruence).
        assert (j = i); [|lia]. apply (Hname j g); [|exact E]. rewrite Efs, nth_error_app1 by lia. exact Hj. }
    rewrite Hf1, Nat.add_0_r. cbn [move_inner]. rewrite (index_nth _ _ _ Hcol). cbn [bind].
    rewrite (proj2 (name_eq (fd_name f) (c_name k)) Hfk).
    replace (i <? List.length (rev (firstn i K) ++ skipn i K ++ R))%nat with true by (symmetry; apply Nat.ltb_lt, nth_error_Some; congruence).
    cbn [bind].
    assert (Hnew : k :: firstn i (rev (firstn i K) ++ skipn i K ++ R) ++ skipn (S i) (rev (firstn i K) ++ skipn i K ++ R) = rev (firstn (S i) K) ++ skipn (S i) K ++ R).
    { rewrite firstn_app, Hfi, Nat.sub_diag, (firstn_all2 (rev _)) by lia. change (firstn 0 (skipn i K ++ R)) with (@nil Column). rewrite app_nil_r.
      rewrite skipn_app, (skipn_all2 (rev _)) by lia. rewrite Hfi. replace (S i - i)%nat with 1%nat by lia. rewrite HK.
      set (T := skipn (S i) K). change (skipn 1 ((k :: T) ++ R)) with (T ++ R). change ([] ++ T ++ R) with (T ++ R).
      assert (E : firstn (S i) K = firstn i K ++ [k]).
      { clear - Ek. revert i Ek. induction K as [|x K IHK]; intros [|i] E; cbn in *; try discriminate; [now injection E as ->|]. f_equal. now apply IHK. }
      rewrite E, rev_app_distr. cbn [rev app]. reflexivity. }
    rewrite Hnew.
    assert (Hskip : move_inner f2 (S i) i (rev (firstn (S i) K) ++ skipn (S i) K ++ R) = Ok (rev (firstn (S i) K) ++ skipn (S i) K ++ R)).
    { destruct K as [|k0 K0]; [cbn in HiK; lia|]. apply (inner_skip _ _ _ _ k0).
      - rewrite nth_error_app1 by (rewrite rev_length, firstn_length_le by lia; lia).
        cbn [firstn rev]. rewrite nth_error_app2 by (rewrite rev_length, firstn_length_le by (cbn in HiK; lia); lia).
        rewrite rev_length, firstn_length_le by (cbn in HiK; lia). now rewrite Nat.sub_diag.
      - intros g Hg E. apply in_nth_error in Hg as [j Hj].
        assert (Hj2 : nth_error fields (i + S j) = Some g).
        { rewrite Efs, nth_error_app2 by lia. rewrite Hf1. replace (i + S j - i)%nat with (S j) by lia. exact Hj. }
        apply (map_nth_error fd_name) in Hj2. rewrite Hf, E in Hj2.
        assert (i + S j = 0)%nat; [|lia]. eapply (names_distinct _ _ 0); [exact HnK|exact Hj2|reflexivity]. }
    rewrite Hskip. cbn [bind]. rewrite <- Efs. apply (IH (S i)). lia.
Qed.
Lemma move_prefix K R fields : NoDup (map c_name (K ++ R)) -> map fd_name fields = map c_name K ->
  moveColumns2First fields (K ++ R) = Ok (rev K ++ R).
Proof.
  intros Hd Hf. unfold moveColumns2First. rewrite app_length. exact (move_prefix_steps K R fields Hd Hf (List.length K) 0 eq_refl).
Qed.
(** A one-column key elsewhere overwrites the first column. *)
Lemma move_single_steps a k l2 f : fd_name f = c_name k -> (forall c, In c l2 -> c_name c <> c_name k) ->
  forall m pre, (forall c, In c (a :: pre ++ m) -> c_name c <> c_name k) ->
  move_outer (List.length m + S (List.length l2)) (S (List.length pre)) [f] (a :: pre ++ m ++ k :: l2) = Ok (k :: pre ++ m ++ k :: l2).
Proof.
  intros Hf H2. induction m as [|x m IH]; intros pre H1.
  - cbn [List.length plus app move_outer move_inner].
    assert (E : nth_error (a :: pre ++ k :: l2) (S (List.length pre)) = Some k) by (cbn [nth_error]; rewrite nth_error_app2, Nat.sub_diag by lia; reflexivity).
    rewrite (index_nth _ _ _ E). cbn [bind]. rewrite (proj2 (name_eq _ _) Hf). cbn [List.length Nat.ltb Nat.leb bind firstn skipn app].
    apply outer_skip.
    + intros j c Hj Hc g [<-|[]]. rewrite Hf. destruct j as [|j]; [lia|]. cbn [nth_error] in Hc. rewrite nth_error_app2 in Hc by lia.
      destruct (j - List.length pre)%nat as [|q] eqn:Eq; [lia|]. cbn [nth_error] in Hc. apply nth_error_In in Hc. intro X. apply (H2 c Hc). congruence.
    + cbn [List.length]. rewrite app_length. cbn [List.length]. lia.
  - cbn [List.length plus app move_outer].
    assert (E : nth_error (a :: pre ++ x :: m ++ k :: l2) (S (List.length pre)) = Some x) by (cbn [nth_error]; rewrite nth_error_app2, Nat.sub_diag by lia; reflexivity).
    rewrite (inner_skip [f] 0 _ _ x E).
    2:{ intros g [<-|[]]. rewrite Hf. intro X. apply (H1 x); [right; apply in_or_app; right; now left|congruence]. }
    cbn [bind]. specialize (IH (pre ++ [x])). rewrite app_length in IH. cbn [List.length] in IH. rewrite Nat.add_1_r in IH.
    rewrite <- !app_assoc in IH. cbn [app] in IH. apply IH. intros c Hc. apply H1. exact Hc.
Qed.
Lemma move_single a l1 k l2 f : fd_name f = c_name k -> (forall c, In c (a :: l1 ++ l2) -> c_name c <> c_name k) ->
  moveColumns2First [f] (a :: l1 ++ k :: l2) = Ok (k :: l1 ++ k :: l2).
Proof.
  intros Hf H. unfold moveColumns2First. cbn [List.length]. rewrite app_length. cbn [List.length move_outer].
  rewrite (inner_skip [f] 0 0 (a :: l1 ++ k :: l2) a eq_refl).
  2:{ intros g [<-|[]]. rewrite Hf. intro X. apply (H a); [now left|congruence]. }
  cbn [bind]. apply (move_single_steps a k l2 f Hf) with (pre := []).
  - intros c Hc. apply H. right. apply in_or_app. now right.
  - intros c [<-|Hc]; apply H; [now left|right; apply in_or_app; now left].
Qed.
Lemma pk_others ixs cols : (forall k ix, In (k, ix) ixs -> ~ is_primary ix) -> movePK_table ixs cols = Ok cols.
Proof.
  induction ixs as [|[k ix] ixs IH]; intro H; [reflexivity|]. cbn [movePK_table].
  replace (beq (ix_name ix) (bs "PRIMARY")) with false by (symmetry; apply not_true_iff_false; rewrite beq_primary; apply (H k); now left).
  cbn [bind]. apply IH. intros k' ix' Hin. apply (H k'). now right.
Qed.
Lemma pk_one k ix ixs cols r : at_most_one (fun x => is_primary (snd x)) ixs -> In (k, ix) ixs -> is_primary ix ->
  moveColumns2First (ix_fields ix) cols = r -> movePK_table ixs cols = r.
Proof.
  intros Ho Hin Hc Hs. apply in_split in Hin as [l1 [l2 ->]].
  assert (H1 : forall k' ix', In (k', ix') l1 -> ~ is_primary ix').
  { intros k' ix' Hi Hc'. apply in_split in Hi as [a [b ->]]. apply (Ho a (k', ix') b (k, ix) l2); [rewrite <- app_assoc; reflexivity|exact Hc'|exact Hc]. }
  assert (H2 : forall k' ix', In (k', ix') l2 -> ~ is_primary ix').
  { intros k' ix' Hi Hc'. apply in_split in Hi as [a [b ->]]. now apply (Ho l1 (k, ix) a (k', ix') b). }
  clear Ho. induction l1 as [|[k1 ix1] l1 IH]; cbn [app movePK_table].
  - rewrite (proj2 (beq_primary ix) Hc), Hs. destruct r as [r| |]; cbn [bind]; [|reflexivity|reflexivity]. now apply pk_others.
  - replace (beq (ix_name ix1) (bs "PRIMARY")) with false by (symmetry; apply not_true_iff_false; rewrite beq_primary; apply (H1 k1); now left).
    cbn [bind]. apply IH. intros k' ix' Hi. apply (H1 k'). now right.
Qed.

(** * Order of the maps *)
Lemma one_perm {A} (P : A -> Prop) l l' : Permutation l l' -> at_most_one P l -> at_most_one P l'.
Proof.
  intros Hp Ho l1 x l2 y l3 E Hx Hy. subst l'.
  assert (Hx1 : In x l) by (eapply Permutation_in; [symmetry; exact Hp|apply in_or_app; right; now left]).
  apply in_split in Hx1 as [a [b ->]].
  assert (Hp2 : Permutation (a ++ b) (l1 ++ l2 ++ y :: l3)) by (apply Permutation_app_inv with (a := x); exact Hp).
  assert (Hy1 : In y (a ++ b)) by (eapply Permutation_in; [symmetry; exact Hp2|apply in_or_app; right; apply in_or_app; right; now left]).
  apply in_app_or in Hy1 as [Hy1|Hy1]; apply in_split in Hy1 as [c [d ->]].
  - apply (Ho c y d x b); [rewrite <- app_assoc; reflexivity|exact Hy|exact Hx].
  - apply (Ho a x c y d); [reflexivity|exact Hx|exact Hy].
Qed.
Lemma one_weaken {A} (P Q : A -> Prop) l : (forall x, Q x -> P x) -> at_most_one P l -> at_most_one Q l.
Proof. intros H Ho l1 x l2 y l3 E Hx Hy. eapply Ho; [exact E| |]; now apply H. Qed.
Lemma class_dec (P : Index -> Prop) (f : Index -> bool) : (forall ix, f ix = true <-> P ix) ->
  forall ixs : gomap Index, (exists k ix, In (k, ix) ixs /\ P ix) \/ (forall k ix, In (k, ix) ixs -> ~ P ix).
Proof.
  intro Hf. induction ixs as [|[k ix] ixs IH]; [right; intros k ix []|].
  destruct (f ix) eqn:E; [left; exists k, ix; split; [now left|now apply Hf]|].
  destruct IH as [[k' [ix' [H1 H2]]]|IH]; [left; exists k', ix'; split; [now right|exact H2]|].
  right. intros k' ix' [H|H]; [injection H as <- <-; rewrite <- Hf; congruence|now apply (IH k')].
Qed.
Lemma pk_perm ixs ixs' cols : Permutation ixs ixs' -> at_most_one (fun x => is_primary (snd x)) ixs ->
  movePK_table ixs cols = movePK_table ixs' cols.
Proof.
  intros Hp Ho. destruct (class_dec is_primary (fun ix => beq (ix_name ix) (bs "PRIMARY")) beq_primary ixs) as [[k [ix [Hi Hx]]]|Hn].
  - rewrite (pk_one k ix ixs cols _ Ho Hi Hx eq_refl). symmetry. apply (pk_one k ix ixs' cols); [now apply (one_perm _ ixs)|now apply (Permutation_in _ Hp)|exact Hx|reflexivity].
  - rewrite pk_others by exact Hn. symmetry. apply pk_others. intros k ix Hi. apply (Hn k). now apply (Permutation_in (l := ixs') (l' := ixs) (k, ix) (Permutation_sym Hp)).
Qed.
Lemma step_res id ix cols : (exists r, internal_step id ix cols = Ok r) \/ internal_step id ix cols = Panic.
Proof.
  assert (HA : forall c n x, (exists r, addColumns c n x = Ok r) \/ addColumns c n x = Panic).
  { intros c n x. unfold addColumns, slice_from, slice_to. destruct ((0 <=? n) && (n <=? len c)); cbn [bind]; [left; eauto|now right]. }
  unfold internal_step. destruct (beq (ix_name ix) _).
  - destruct (HA cols (i64 (ix_nfields ix)) (addInternalColumn (bs "DB_TRX_ID") id (ix_nfields ix))) as [[r ->]| ->]; cbn [bind]; [apply HA|now right].
  - destruct (beq (ix_name ix) _); [|left; eauto].
    destruct (HA cols 0 (addInternalColumn (bs "DB_ROW_ID") id 0)) as [[r ->]| ->]; cbn [bind]; [|now right].
    destruct (HA r 1 (addInternalColumn (bs "DB_TRX_ID") id 1)) as [[r' ->]| ->]; cbn [bind]; [apply HA|now right].
Qed.
Lemma internal_one_eq id k ix ixs cols : at_most_one (fun x => clustered (snd x)) ixs -> In (k, ix) ixs -> clustered ix ->
  addInternal_table id ixs cols = internal_step id ix cols.
Proof.
  intros Ho Hin Hc. destruct (step_res id ix cols) as [[r E]|E]; [rewrite E; now apply (internal_one id k ix)|].
  rewrite E. apply in_split in Hin as [l1 [l2 ->]].
  assert (H1 : forall k' ix', In (k', ix') l1 -> ~ clustered ix').
  { intros k' ix' Hi Hc'. apply in_split in Hi as [a [b ->]]. apply (Ho a (k', ix') b (k, ix) l2); [rewrite <- app_assoc; reflexivity|exact Hc'|exact Hc]. }
  clear Ho. induction l1 as [|[k1 ix1] l1 IH]; cbn [app]; rewrite internal_unfold.
  - rewrite E. reflexivity.
  - rewrite step_other by (apply (H1 k1); now left). cbn [bind]. apply IH. intros k' ix' Hi. apply (H1 k'). now right.
Qed.
Lemma beq_clustered ix : beq (ix_name ix) (bs "PRIMARY") || beq (ix_name ix) (bs "GEN_CLUST_INDEX") = true <-> clustered ix.
Proof. rewrite orb_true_iff, beq_primary, beq_generated. reflexivity. Qed.
Lemma internal_perm id ixs ixs' cols : Permutation ixs ixs' -> at_most_one (fun x => clustered (snd x)) ixs ->
  addInternal_table id ixs cols = addInternal_table id ixs' cols.
Proof.
  intros Hp Ho. destruct (class_dec clustered _ beq_clustered ixs) as [[k [ix [Hi Hx]]]|Hn].
  - rewrite (internal_one_eq id k ix ixs cols Ho Hi Hx). symmetry. apply (internal_one_eq id k ix ixs' cols); [now apply (one_perm _ ixs)|now apply (Permutation_in _ Hp)|exact Hx].
  - rewrite internal_others by exact Hn. symmetry. apply internal_others. intros k ix Hi. apply (Hn k). now apply (Permutation_in (l := ixs') (l' := ixs) (k, ix) (Permutation_sym Hp)).
Qed.
Lemma fold_columns tm db tb : forall acc, fold_left (fun columns kt =>
    if beq (t_db (snd kt)) db && beq (t_name (snd kt)) tb then t_columns (snd kt) else columns) tm acc
  = match filter (fun kt : Z * Table => beq (t_db (snd kt)) db && beq (t_name (snd kt)) tb) (rev tm) with [] => acc | kt :: _ => t_columns (snd kt) end.
Proof.
  induction tm as [|kt tm IH] using rev_ind; intro acc; [reflexivity|]. rewrite fold_left_app, rev_app_distr. cbn [rev app filter fold_left].
  destruct (beq (t_db (snd kt)) db && beq (t_name (snd kt)) tb); [reflexivity|]. apply IH.
Qed.
Lemma perm_filter {A} (f : A -> bool) l l' : Permutation l l' -> Permutation (filter f l) (filter f l').
Proof.
  induction 1 as [|x l l' _ IH|x y l|l1 l2 l3 _ IH1 _ IH2]; cbn [filter]; [constructor| | |now transitivity (filter f l2)].
  - destruct (f x); [now constructor|exact IH].
  - destruct (f x), (f y); try constructor; reflexivity.
Qed.
Lemma one_filter {A} (P : A -> Prop) (f : A -> bool) l : (forall x, f x = true -> P x) -> at_most_one P l ->
  filter f l = [] \/ exists x, filter f l = [x].
Proof.
  intros Hf Ho. induction l as [|x l IH]; [now left|]. cbn [filter].
  assert (IH' : filter f l = [] \/ exists x, filter f l = [x]).
  { apply IH. intros l1 a l2 b l3 E. apply (Ho (x :: l1) a l2 b l3). now rewrite E. }
  destruct (f x) eqn:E; [|exact IH']. right. exists x. f_equal. destruct IH' as [->|[y Ey]]; [reflexivity|]. exfalso.
  assert (Hy : In y (filter f l)) by (rewrite Ey; now left). apply filter_In in Hy as [Hy Hfy]. apply in_split in Hy as [a [b ->]].
  apply (Ho [] x a y b); [reflexivity|now apply Hf|now apply Hf].
Qed.

(** * Dictionary pages *)
Definition root_page (sp : SysHeader) (g : Page) : bool :=
  let off := fil_offset (pg_fil g) in
  (off =? sp_tables sp) || (off =? sp_columns sp) || (off =? sp_indexes sp) || (off =? sp_fields sp).
Lemma find_sys ps : Forall page_image ps ->
  match find (fun p => page_number p =? 7) ps with
  | Some s => findSysPage (map as_page ps) = parseSysPageHeader (as_page s) /\ page_image s
  | None => findSysPage (map as_page ps) = Ok zeroSys
  end.
Proof.
  induction 1 as [|p ps Hp _ IH]; [reflexivity|]. cbn [find map findSysPage]. change (fil_offset (pg_fil (as_page p))) with (page_number p).
  change SystemPageIdx with 7. destruct (page_number p =? 7); [split; [reflexivity|exact Hp]|exact IH].
Qed.
Lemma dict_never fuel rt D k : In k [1; 2; 3; 4] -> mget D k = None -> forall out tm,
  ('(tm, err) <-w getAllTables fuel rt [] D ;;
    match err with Some e => wret (tm, Some e) | None =>
    '(tm, err) <-w getAllColumns fuel rt tm D ;;
    match err with Some e => wret (tm, Some e) | None =>
    '(tm, err) <-w getAllIndexes fuel rt tm D ;;
    match err with Some e => wret (tm, Some e) | None =>
    '(tm, err) <-w getAllFields fuel rt tm D ;;
    match err with Some e => wret (tm, Some e) | None =>
    tm <-w wlift (finishDict tm) ;;
    wret (tm, None)
    end end end end) <> (out, Ok (tm, None)).
Proof.
  intros Hk HD out tm E.
  assert (HB : forall A B (m : W A) (f : A -> W B) o b, wbind m f = (o, Ok b) -> exists o1 a o2, m = (o1, Ok a) /\ f a = (o2, Ok b)).
  { intros A B [o1 [a| |]] f o b H; cbn in H; try discriminate. destruct (f a) as [o2 r] eqn:Ef. injection H as _ ->. eauto. }
  apply HB in E as [o1 [[tm1 e1] [o1' [E1 E]]]]. destruct e1 as [e|]; [discriminate|].
  apply HB in E as [o2 [[tm2 e2] [o2' [E2 E]]]]. destruct e2 as [e|]; [discriminate|].
  apply HB in E as [o3 [[tm3 e3] [o3' [E3 E]]]]. destruct e3 as [e|]; [discriminate|].
  apply HB in E as [o4 [[tm4 e4] [o4' [E4 E]]]]. destruct e4 as [e|]; [discriminate|].
  destruct Hk as [<-|[<-|[<-|[<-|[]]]]].
  - unfold getAllTables in E1. change SysTablesIdx with 1 in E1. rewrite HD in E1. discriminate.
  - unfold getAllColumns in E2. change SysColumnsIdx with 2 in E2. rewrite HD in E2. discriminate.
  - unfold getAllIndexes in E3. change SysIndexesIdx with 3 in E3. rewrite HD in E3. discriminate.
  - unfold getAllFields in E4. change SysFieldsIdx with 4 in E4. rewrite HD in E4. discriminate.
Qed.

(** * All SYS_COLUMNS rows *)
Definition of_table (id : Z) (ds : list column_def) : list column_def := filter (fun d => cd_table d =? id) ds.
Fixpoint growns (t : Table) (ds : list column_def) : Table :=
  match ds with [] => t | d :: ds' => growns (grown t (new_column d)) ds' end.
Lemma add_all rows ds : Forall2 columns_row rows ds -> forall tm, exists tm', addAllColumns tm rows = Ok tm'
  /\ forall id, mget tm' id = option_map (fun t => growns t (of_table id ds)) (mget tm id).
Proof.
  induction 1 as [|r d rows ds Hr _ IH]; intro tm; cbn [addAllColumns].
  - exists tm. split; [reflexivity|]. intro id. cbn. now destruct (mget tm id).
  - rewrite (add_column tm r d Hr). cbn [bind]. set (tm1 := match mget tm (cd_table d) with Some _ => _ | None => _ end).
    destruct (IH tm1) as [tm' [E H]]. exists tm'. split; [exact E|]. intro id. rewrite H. unfold tm1, of_table. cbn [filter].
    destruct (Z.eqb_spec (cd_table d) id) as [<-|N].
    + destruct (mget tm (cd_table d)) as [t|] eqn:Et; [rewrite mget_mset, Z.eqb_refl; reflexivity|now rewrite Et].
    + destruct (mget tm (cd_table d)) as [t|] eqn:Et; [|reflexivity]. rewrite mget_mset. replace (id =? cd_table d) with false by lia. reflexivity.
Qed.
Lemma growns_spec ds : forall t, t_columns (growns t ds) = t_columns t ++ map new_column ds
  /\ t_db (growns t ds) = t_db t /\ t_name (growns t ds) = t_name t /\ t_indexes (growns t ds) = t_indexes t /\ t_space (growns t ds) = t_space t.
Proof.
  induction ds as [|d ds IH]; intro t; cbn [growns map]; [rewrite app_nil_r; repeat split|].
  destruct (IH (grown t (new_column d))) as [E [E1 [E2 [E3 E4]]]]. rewrite E, E1, E2, E3, E4. cbn [grown t_columns t_db t_name t_indexes t_space].
  rewrite <- app_assoc. repeat split.
Qed.
(** Distinct names: the first columns as key. *)
Lemma filter_none {A} (f : A -> bool) l : (forall x, In x l -> f x = false) -> filter f l = [].
Proof. induction l as [|x l IH]; intro H; [reflexivity|]. cbn [filter]. rewrite (H x (or_introl eq_refl)). apply IH. intros y Hy. apply H. now right. Qed.
Lemma filter_all {A} (f : A -> bool) l : (forall x, In x l -> f x = true) -> filter f l = l.
Proof. induction l as [|x l IH]; intro H; [reflexivity|]. cbn [filter]. rewrite (H x (or_introl eq_refl)). f_equal. apply IH. intros y Hy. apply H. now right. Qed.
Lemma named_eq n c : named n c = true <-> c_name c = n.
Proof. unfold named. destruct (list_eq_dec Z.eq_dec (c_name c) n); split; congruence. Qed.
Lemma key_first_prefix K R : NoDup (map c_name (K ++ R)) -> key_first (map c_name K) (K ++ R) = K ++ R.
Proof.
  intro Hd. unfold key_first. f_equal.
  - enough (H : forall K1 K2, K = K1 ++ K2 -> flat_map (fun n => filter (named n) (K ++ R)) (map c_name K2) = K2) by (apply (H [] K eq_refl)).
    intros K1 K2. revert K1. induction K2 as [|k K2 IH]; intros K1 E; [reflexivity|]. cbn [map flat_map].
    rewrite (IH (K1 ++ [k])) by (rewrite <- app_assoc; exact E). change (k :: K2) with ([k] ++ K2). f_equal.
    rewrite E in *. rewrite <- app_assoc in *. cbn [app] in *. rewrite map_app in Hd. cbn [map] in Hd. apply NoDup_remove_2 in Hd.
    rewrite filter_app. cbn [filter]. rewrite (proj2 (named_eq (c_name k) k) eq_refl).
    rewrite filter_none, filter_none; [reflexivity| |]; intros x Hx; apply not_true_iff_false; rewrite named_eq; intro X; apply Hd; apply in_or_app; rewrite <- X; [right|left]; now apply in_map.
  - rewrite filter_app. rewrite filter_none, filter_all; [reflexivity| |].
    + intros x Hx. apply negb_true_iff, not_true_iff_false. rewrite existsb_exists. intros [n [Hn En]]. apply named_eq in En. subst n.
      rewrite map_app in Hd. apply in_map_iff in Hn as [y [E Hy]]. apply (in_map c_name) in Hx, Hy. rewrite E in Hy. clear - Hd Hx Hy.
      induction (map c_name K) as [|z l IH]; [contradiction|]. cbn [app] in Hd. inversion Hd; subst. destruct Hy as [->|Hy]; [|now apply IH]. apply H1, in_or_app. now right.
    + intros x Hx. apply negb_false_iff. apply existsb_exists. exists (c_name x). split; [now apply in_map|now apply named_eq].
Qed.
Lemma null_count_perm a b : Permutation a b -> null_count a = null_count b.
Proof. intro H. unfold null_count, zlen. f_equal. apply Permutation_length. now apply perm_filter. Qed.

(** * The pages stored under each index id *)
Definition is_root (rts : list Z) (p : list Z) : bool := existsb (Z.eqb (page_number p)) rts.
Definition tree_step (rts : list Z) (k : Z) (ds : option (list (list Z))) (p : list Z) : option (list (list Z)) :=
  if index_of p =? k then if is_root rts p then Some [p] else option_map (fun l => l ++ [p]) ds else ds.
Definition sys_list (sp : SysHeader) : list Z := [sp_tables sp; sp_columns sp; sp_indexes sp; sp_fields sp].
Lemma root_list sp p : root_page sp (as_page p) = is_root (sys_list sp) p.
Proof. unfold root_page, is_root, sys_list. cbn [existsb]. change (fil_offset (pg_fil (as_page p))) with (page_number p). now rewrite orb_false_r, !orb_assoc. Qed.
Lemma index_page p : pg_index_id (as_page p) = index_of p.
Proof. reflexivity. Qed.
Lemma orig_page p : pg_orig (as_page p) = p.
Proof. reflexivity. Qed.
Lemma dict_total sp ps : Forall page_image ps -> forall D0, exists D, dictPages_loop sp D0 (map as_page ps) = Ok D
  /\ forall k, mget D k = fold_left (tree_step (sys_list sp) k) ps (mget D0 k).
Proof.
  induction 1 as [|p ps Hp _ IH]; intro D0; cbn [map dictPages_loop fold_left]; [exists D0; split; reflexivity|].
  assert (HS : exists D1, dictPages_step sp D0 (as_page p) = Ok D1 /\ forall k, mget D1 k = tree_step (sys_list sp) k (mget D0 k) p).
  { unfold dictPages_step. cbv zeta. fold (root_page sp (as_page p)). rewrite root_list, (page_header (as_page p) p Hp) by reflexivity.
    rewrite index_page, orig_page. cbn [bind]. unfold tree_step. destruct (is_root (sys_list sp) p).
    - eexists. split; [reflexivity|]. intro k. rewrite mget_mset, (Z.eqb_sym k). reflexivity.
    - destruct (mget D0 (index_of p)) as [ds|] eqn:E.
      + eexists. split; [reflexivity|]. intro k. rewrite mget_mset, (Z.eqb_sym k). destruct (Z.eqb_spec (index_of p) k) as [<-|]; [now rewrite E|reflexivity].
      + eexists. split; [reflexivity|]. intro k. destruct (Z.eqb_spec (index_of p) k) as [<-|]; [now rewrite E|reflexivity]. }
  destruct HS as [D1 [E1 H1]]. rewrite E1. cbn [bind]. destruct (IH D1) as [D [E H]]. exists D. split; [exact E|]. intro k. now rewrite H, H1.
Qed.
Definition dict_rest (fuel : nat) (rt : runtime) (D : DictPages) : W (gomap Table * option bytes) :=
  ('(tm, err) <-w getAllTables fuel rt [] D ;;
    match err with Some e => wret (tm, Some e) | None =>
    '(tm, err) <-w getAllColumns fuel rt tm D ;;
    match err with Some e => wret (tm, Some e) | None =>
    '(tm, err) <-w getAllIndexes fuel rt tm D ;;
    match err with Some e => wret (tm, Some e) | None =>
    '(tm, err) <-w getAllFields fuel rt tm D ;;
    match err with Some e => wret (tm, Some e) | None =>
    tm <-w wlift (finishDict tm) ;;
    wret (tm, None)
    end end end end).
Definition roots0 (ps : list (list Z)) : list Z := match find (fun p => page_number p =? 7) ps with Some _ => roots ps | None => [0; 0; 0; 0] end.
Lemma firsts_images ps : Forall page_image ps -> Forall page_image (firsts ps).
Proof. intro Hp. apply Forall_forall. intros p Hi. apply firsts_incl in Hi. rewrite Forall_forall in Hp. now apply Hp. Qed.
Lemma dict_run fuel rt ps : Forall page_image ps -> exists D, ParseDictPage fuel rt (Some (map IoBytes ps)) = dict_rest fuel rt D
  /\ forall k, mget D k = fold_left (tree_step (roots0 (firsts ps)) k) (firsts ps) None.
Proof.
  intro Hp. pose proof (firsts_images ps Hp) as Hf. pose proof (find_sys (firsts ps) Hf) as HS.
  assert (HX : exists sp, findSysPage (map as_page (firsts ps)) = Ok sp /\ sys_list sp = roots0 (firsts ps)).
  { unfold roots0, roots. destruct (find _ (firsts ps)) as [s|]; [|exists zeroSys; split; [exact HS|reflexivity]].
    destruct HS as [E Hs]. rewrite E, (sys_header (as_page s) s Hs) by reflexivity. eexists. split; reflexivity. }
  destruct HX as [sp [E1 E2]]. destruct (dict_total sp (firsts ps) Hf []) as [D [E3 HD]]. exists D. split; [|intro k; rewrite HD, E2; reflexivity].
  unfold ParseDictPage. rewrite file_pages by exact Hp. rewrite wbind_lift. cbv beta iota. rewrite E1, wbind_lift, E3, wbind_lift. reflexivity.
Qed.
Lemma tree_none rts k ps : (forall p, In p ps -> is_root rts p = true -> index_of p <> k) -> fold_left (tree_step rts k) ps None = None.
Proof.
  induction ps as [|p ps IH]; intro H; [reflexivity|]. cbn [fold_left].
  replace (tree_step rts k None p) with (@None (list (list Z))); [apply IH; intros q Hq; apply H; now right|].
  unfold tree_step. destruct (Z.eqb_spec (index_of p) k) as [E|]; [|reflexivity]. destruct (is_root rts p) eqn:R; [|reflexivity].
  exfalso. apply (H p (or_introl eq_refl) R E).
Qed.
Lemma dict_never' fuel rt D k : In k [1; 2; 3; 4] -> mget D k = None -> forall out tm, dict_rest fuel rt D <> (out, Ok (tm, None)).
Proof. exact (dict_never fuel rt D k). Qed.
Lemma no_sys_absent ps : NoDup (map page_number ps) -> find (fun p => page_number p =? 7) ps = None ->
  exists k, In k [1; 2] /\ forall p, In p ps -> is_root (roots0 ps) p = true -> index_of p <> k.
Proof.
  intros Hd Hf. unfold roots0. rewrite Hf. assert (Hz : forall p, is_root [0; 0; 0; 0] p = true -> page_number p = 0) by (intros p Hp; unfold is_root in Hp; cbn [existsb] in Hp; lia).
  destruct (find (is_root [0; 0; 0; 0]) ps) as [q|] eqn:E.
  - apply find_some in E as [Hi Hq]. exists (if index_of q =? 1 then 2 else 1). split; [destruct (index_of q =? 1); cbn; tauto|].
    intros p Hp Hr. assert (p = q).
    { apply Hz in Hr, Hq. clear - Hd Hi Hp Hr Hq. induction ps as [|x l IH]; [contradiction|]. cbn [map] in Hd. inversion Hd as [|? ? Hx Hd']; subst.
      destruct Hi as [<-|Hi], Hp as [<-|Hp]; [reflexivity| | |now apply IH]; exfalso; apply Hx; [rewrite Hq, <- Hr|rewrite Hr, <- Hq]; now apply in_map. }
    subst p. destruct (Z.eqb_spec (index_of q) 1); congruence.
  - exists 1. split; [now left|]. intros p Hp Hr. pose proof (find_none _ _ E p Hp). congruence.
Qed.
Lemma is_root_in rts p : is_root rts p = true <-> In (page_number p) rts.
Proof. unfold is_root. rewrite existsb_exists. split; [intros [x [H E]]; apply Z.eqb_eq in E; now subst|intro H; exists (page_number p); split; [exact H|apply Z.eqb_refl]]. Qed.
Lemma dict_missing fuel rt D : mget D 1 = None -> dict_rest fuel rt D = ([], Ok ([], Some err_tables)).
Proof. intro H. unfold dict_rest, getAllTables. change SysTablesIdx with 1. rewrite H. reflexivity. Qed.
