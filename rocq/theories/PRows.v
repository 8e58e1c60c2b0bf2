(** Proofs for PropRows.v: dictionary rows with a value of the wrong kind. *)
From Coq Require Import ZifyBool.
From Verif Require Import GoBase Utils Ibdata SpecInno SpecText SpecSql SpecRecord SpecRow SpecPage SpecDict PBase PWire PDict.
Local Open Scope list_scope.


Lemma as_uint_cases row i : (exists n, holds_value row i (VUint n) /\ as_uint row (Z.of_nat i) = Ok n)
  \/ (~ number_at row i /\ as_uint row (Z.of_nat i) = Panic).
Proof.
  destruct (nth_error row i) as [c|] eqn:E.
  - assert (i < List.length row)%nat by (apply nth_error_Some; congruence).
    assert (Ei : as_uint row (Z.of_nat i) = match c_value c with VUint n => Ok n | _ => Panic end).
    { unfold as_uint, index. replace ((0 <=? Z.of_nat i) && (Z.of_nat i <? len row)) with true by (unfold len; lia). rewrite Nat2Z.id, E. reflexivity. }
    unfold number_at, holds_value. rewrite Ei, E. cbn [option_map].
    destruct (c_value c) as [| | | | |]; try (right; split; [intros [? X]; discriminate|reflexivity]); left; eexists; split; reflexivity.
  - right. split; [intros [n X]; unfold holds_value in X; rewrite E in X; discriminate|].
    unfold as_uint, index. apply nth_error_None in E. replace ((0 <=? Z.of_nat i) && (Z.of_nat i <? len row)) with false by (unfold len; lia). reflexivity.
Qed.
Lemma as_str_cases row i : (exists n, holds_value row i (VStr n) /\ as_str row (Z.of_nat i) = Ok n)
  \/ (~ text_at row i /\ as_str row (Z.of_nat i) = Panic).
Proof.
  destruct (nth_error row i) as [c|] eqn:E.
  - assert (i < List.length row)%nat by (apply nth_error_Some; congruence).
    assert (Ei : as_str row (Z.of_nat i) = match c_value c with VStr n => Ok n | _ => Panic end).
    { unfold as_str, index. replace ((0 <=? Z.of_nat i) && (Z.of_nat i <? len row)) with true by (unfold len; lia). rewrite Nat2Z.id, E. reflexivity. }
    unfold text_at, holds_value. rewrite Ei, E. cbn [option_map].
    destruct (c_value c) as [| | | | |]; try (right; split; [intros [? X]; discriminate|reflexivity]); left; eexists; split; reflexivity.
  - right. split; [intros [n X]; unfold holds_value in X; rewrite E in X; discriminate|].
    unfold as_str, index. apply nth_error_None in E. replace ((0 <=? Z.of_nat i) && (Z.of_nat i <? len row)) with false by (unfold len; lia). reflexivity.
Qed.

Lemma split_two s : In 47 s -> exists a b r, split_on 47 s = a :: b :: r.
Proof.
  induction s as [|c s IH]; [intros []|]. cbn [split_on]. destruct (Z.eqb_spec c 47) as [->|N].
  - intros _. exists []. destruct (split_on 47 s) as [|b r] eqn:E; [|eexists _, _; reflexivity].
    exfalso. destruct s as [|d s]; cbn [split_on] in E; [discriminate|]. destruct (d =? 47); [discriminate|]. destruct (split_on 47 s); discriminate.
  - intros [X|X]; [congruence|]. destruct (IH X) as [a [b [r ->]]]. eexists _, _, _. reflexivity.
Qed.

Lemma add_table_cases tm row : (tables_good row /\ exists tm', addTable tm row = Ok tm')
  \/ (~ tables_good row /\ addTable tm row = Panic).
Proof.
  unfold addTable, tables_good.
  destruct (as_str_cases row 0) as [[name [H0 E0]]|[H0 E0]]; change (Z.of_nat 0) with 0 in E0; rewrite E0; cbn [bind]; [|right; split; [tauto|reflexivity]].
  match goal with |- context [bind (if ?c then ?x else ?y) _] => assert (D : exists dt, (if c then x else y) = Ok dt) end.
  { destruct (contains_byte 47 name) eqn:C; [|eexists; reflexivity]. apply contains_in in C.
    destruct (split_two name C) as [a [b [r Es]]]. exists (a, b). cbv zeta. rewrite Es. unfold index.
    replace ((0 <=? 0) && (0 <? len (a :: b :: r))) with true by (unfold len; cbn [List.length]; lia).
    replace ((0 <=? 1) && (1 <? len (a :: b :: r))) with true by (unfold len; cbn [List.length]; lia). reflexivity. }
  destruct D as [dt ->]. cbn [bind].
  destruct (as_uint_cases row 3) as [[id [H3 E3]]|[H3 E3]]; change (Z.of_nat 3) with 3 in E3; rewrite E3; cbn [bind]; [|right; split; [tauto|reflexivity]].
  destruct (as_uint_cases row 9) as [[sp [H9 E9]]|[H9 E9]]; change (Z.of_nat 9) with 9 in E9; rewrite E9; cbn [bind]; [|right; split; [tauto|reflexivity]].
  left. split; [repeat split; eexists; eassumption|eexists; reflexivity].
Qed.

Lemma tables_rows rows : forall tm,
  (Forall tables_good rows -> exists tm', addTables tm rows = Ok tm')
  /\ (forall row, In row rows -> ~ tables_good row -> addTables tm rows = Panic).
Proof.
  induction rows as [|r rows IH]; intro tm; cbn [addTables]; [split; [eexists; reflexivity|intros row []]|].
  destruct (add_table_cases tm r) as [[G [tm1 E]]|[B E]]; rewrite E; cbn [bind].
  - destruct (IH tm1) as [I1 I2]. split; [intro F; inversion F; apply I1; assumption|].
    intros row [->|Hi] Hb; [contradiction|exact (I2 row Hi Hb)].
  - split; [intro F; inversion F; contradiction|reflexivity].
Qed.

Lemma fields_rows rows : forall m,
  (Forall fields_good rows -> exists m', addFields m rows = Ok m')
  /\ (forall row, In row rows -> ~ fields_good row -> addFields m rows = Panic).
Proof.
  induction rows as [|r rows IH]; intro m; cbn [addFields]; [split; [eexists; reflexivity|intros row []]|].
  assert (C : (fields_good r /\ exists m', addField m r = Ok m') \/ (~ fields_good r /\ addField m r = Panic)).
  { unfold addField, fields_good.
    destruct (as_uint_cases r 0) as [[x [H0 E0]]|[H0 E0]]; change (Z.of_nat 0) with 0 in E0; rewrite E0; cbn [bind]; [|right; split; [tauto|reflexivity]].
    destruct (as_uint_cases r 1) as [[y [H1 E1]]|[H1 E1]]; change (Z.of_nat 1) with 1 in E1; rewrite E1; cbn [bind]; [|right; split; [tauto|reflexivity]].
    destruct (as_str_cases r 4) as [[z [H4 E4]]|[H4 E4]]; change (Z.of_nat 4) with 4 in E4; rewrite E4; cbn [bind]; [|right; split; [tauto|reflexivity]].
    left. split; [repeat split; eexists; eassumption|eexists; reflexivity]. }
  destruct C as [[G [m1 E]]|[B E]]; rewrite E; cbn [bind].
  - destruct (IH m1) as [I1 I2]. split; [intro F; inversion F; apply I1; assumption|].
    intros row [->|Hi] Hb; [contradiction|exact (I2 row Hi Hb)].
  - split; [intro F; inversion F; contradiction|reflexivity].
Qed.


Lemma in_dict_mget tm id : in_dict tm id <-> mget tm id <> None.
Proof.
  unfold in_dict. pose proof (mget_none tm id) as H. destruct (mget tm id) as [t|].
  - split; [discriminate|]. intros _. destruct (in_dec Z.eq_dec id (map fst tm)) as [X|X]; [exact X|]. apply H in X. discriminate.
  - split; [intro X; apply (proj1 H eq_refl) in X; contradiction|congruence].
Qed.
Lemma in_dict_set tm id t t' : mget tm id = Some t -> forall k, in_dict (mset tm id t') k <-> in_dict tm k.
Proof.
  intros E k. rewrite !in_dict_mget, mget_mset. destruct (Z.eqb_spec k id) as [->|]; [rewrite E; split; discriminate|reflexivity].
Qed.

Ltac step_uint r i := let v := fresh "v" in let H := fresh "H" in let E := fresh "E" in
  destruct (as_uint_cases r i) as [[v [H E]]|[H E]];
  (let z := eval compute in (Z.of_nat i) in change (Z.of_nat i) with z in E); rewrite E; cbn [bind];
  [|right; split; [intros [id' [X Y]]|reflexivity]].
Ltac step_str r i := let v := fresh "v" in let H := fresh "H" in let E := fresh "E" in
  destruct (as_str_cases r i) as [[v [H E]]|[H E]];
  (let z := eval compute in (Z.of_nat i) in change (Z.of_nat i) with z in E); rewrite E; cbn [bind];
  [|right; split; [intros [id' [X Y]]|reflexivity]].

Lemma holds_same row i a b : holds_value row i a -> holds_value row i b -> a = b.
Proof. unfold holds_value. intros -> E. injection E as <-. reflexivity. Qed.

Lemma add_column_cases tm row : (columns_good (in_dict tm) row /\ exists tm', addColumn tm row = Ok tm' /\ forall k, in_dict tm' k <-> in_dict tm k)
  \/ (~ columns_good (in_dict tm) row /\ addColumn tm row = Panic).
Proof.
  unfold addColumn, columns_good. step_uint row 0%nat; [|apply H; exists id'; exact X].
  destruct (mget tm v) as [t|] eqn:Et; [|left; split; [exists v; split; [exact H|intro K; apply in_dict_mget in K; contradiction]|exists tm; split; [reflexivity|tauto]]].
  assert (K : in_dict tm v) by (apply in_dict_mget; rewrite Et; discriminate).
  assert (S0 : forall id', holds_value row 0 (VUint id') -> id' = v) by (intros id' X; pose proof (holds_same _ _ _ _ X H); congruence).
  step_uint row 6%nat; [|rewrite (S0 _ X) in Y; destruct (Y K) as [_ [_ [_ [A _]]]]; contradiction].
  step_uint row 5%nat; [|rewrite (S0 _ X) in Y; destruct (Y K) as [_ [_ [A _]]]; contradiction].
  assert (C7 : (exists n, (if negb (v1 =? DATA_BINARY) then as_uint row 7 else Ok 0) = Ok n /\ (v1 = 4 \/ number_at row 7))
    \/ ((if negb (v1 =? DATA_BINARY) then as_uint row 7 else Ok 0) = Panic /\ v1 <> 4 /\ ~ number_at row 7)).
  { change DATA_BINARY with 4. destruct (Z.eqb_spec v1 4) as [->|N4]; cbn [negb]; [left; exists 0; split; [reflexivity|now left]|].
    destruct (as_uint_cases row 7) as [[n [H7 E7]]|[H7 E7]]; change (Z.of_nat 7) with 7 in E7; rewrite E7.
    - left. exists n. split; [reflexivity|right; exists n; exact H7].
    - right. repeat split; assumption. }
  destruct C7 as [[n [-> C7]]|[-> [N4 N7]]]; cbn [bind].
  2:{ right. split; [|reflexivity]. intros [id' [X Y]]. rewrite (S0 _ X) in Y. destruct (Y K) as [_ [_ [_ [_ [A|A]]]]]; [|contradiction].
      pose proof (holds_same _ _ _ _ A H1). congruence. }
  step_str row 4%nat; [|rewrite (S0 _ X) in Y; destruct (Y K) as [_ [A _]]; contradiction].
  step_uint row 1%nat; [|rewrite (S0 _ X) in Y; destruct (Y K) as [A _]; contradiction].
  left. split.
  - exists v. split; [exact H|]. intros _. repeat split; try (eexists; eassumption). destruct C7 as [->|C7]; [left; exact H1|right; exact C7].
  - eexists. split; [reflexivity|]. exact (in_dict_set tm v t _ Et).
Qed.

Lemma columns_known P Q row : (forall k, P k <-> Q k) -> columns_good P row -> columns_good Q row.
Proof. intros E [id [H1 H2]]. exists id. split; [exact H1|]. intro K. apply H2. apply E. exact K. Qed.
Lemma indexes_known P Q row : (forall k, P k <-> Q k) -> indexes_good P row -> indexes_good Q row.
Proof. intros E [id [H1 H2]]. exists id. split; [exact H1|]. intro K. apply H2. apply E. exact K. Qed.

Lemma columns_rows rows : forall tm,
  (Forall (columns_good (in_dict tm)) rows -> exists tm', addAllColumns tm rows = Ok tm')
  /\ (forall row, In row rows -> ~ columns_good (in_dict tm) row -> addAllColumns tm rows = Panic).
Proof.
  induction rows as [|r rows IH]; intro tm; cbn [addAllColumns]; [split; [eexists; reflexivity|intros row []]|].
  destruct (add_column_cases tm r) as [[G [tm1 [E K]]]|[B E]]; rewrite E; cbn [bind].
  - destruct (IH tm1) as [I1 I2]. split.
    + intro F. inversion F; subst. apply I1. eapply Forall_impl; [|eassumption]. intros a. apply columns_known. intro k. symmetry. apply K.
    + intros row [->|Hi] Hb; [contradiction|]. apply (I2 row Hi). intro G'. apply Hb. revert G'. apply columns_known. exact K.
  - split; [intro F; inversion F; contradiction|reflexivity].
Qed.

Lemma add_index_cases tm row : (indexes_good (in_dict tm) row /\ exists tm' e, addIndex tm row = Ok (tm', e) /\ forall k, in_dict tm' k <-> in_dict tm k)
  \/ (~ indexes_good (in_dict tm) row /\ addIndex tm row = Panic).
Proof.
  unfold addIndex, indexes_good. step_uint row 0%nat; [|apply H; exists id'; exact X].
  destruct (mget tm v) as [t|] eqn:Et; [|left; split; [exists v; split; [exact H|intro K; apply in_dict_mget in K; contradiction]|eexists tm, _; split; [reflexivity|tauto]]].
  assert (K : in_dict tm v) by (apply in_dict_mget; rewrite Et; discriminate).
  assert (S0 : forall id', holds_value row 0 (VUint id') -> id' = v) by (intros id' X; pose proof (holds_same _ _ _ _ X H); congruence).
  step_uint row 1%nat; [|rewrite (S0 _ X) in Y; destruct (Y K) as [A _]; contradiction].
  step_str row 4%nat; [|rewrite (S0 _ X) in Y; destruct (Y K) as [_ [A _]]; contradiction].
  step_uint row 6%nat; [|rewrite (S0 _ X) in Y; destruct (Y K) as [_ [_ [_ A]]]; contradiction].
  step_uint row 5%nat; [|rewrite (S0 _ X) in Y; destruct (Y K) as [_ [_ [A _]]]; contradiction].
  left. split; [exists v; split; [exact H|]; intros _; repeat split; eexists; eassumption|].
  eexists _, _. split; [reflexivity|]. exact (in_dict_set tm v t _ Et).
Qed.

Lemma indexes_rows rows : forall tm e,
  (Forall (indexes_good (in_dict tm)) rows -> exists r, addIndexes tm e rows = Ok r)
  /\ (forall row, In row rows -> ~ indexes_good (in_dict tm) row -> addIndexes tm e rows = Panic).
Proof.
  induction rows as [|r rows IH]; intros tm e; cbn [addIndexes]; [split; [eexists; reflexivity|intros row []]|].
  destruct (add_index_cases tm r) as [[G [tm1 [e1 [E K]]]]|[B E]]; rewrite E; cbn [bind].
  - destruct (IH tm1 (match e1 with Some m => Some m | None => e end)) as [I1 I2]. split.
    + intro F. inversion F; subst. apply I1. eapply Forall_impl; [|eassumption]. intros a. apply indexes_known. intro k. symmetry. apply K.
    + intros row [->|Hi] Hb; [contradiction|]. apply (I2 row Hi). intro G'. apply Hb. revert G'. apply indexes_known. exact K.
  - split; [intro F; inversion F; contradiction|reflexivity].
Qed.
