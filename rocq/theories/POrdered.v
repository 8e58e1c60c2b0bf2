(** What moveColumns2First makes of a key whose columns stand in the table in
    the order of the key, with any columns between them. *)
From Coq Require Import ZifyBool.
From Verif Require Import GoBase Utils Ibdata SpecInno SpecDict PBase PDict PMove.
Local Open Scope list_scope.

Definition of_key (fs : list Field) (c : Column) : bool := existsb (fun f => beq (fd_name f) (c_name c)) fs.
Lemma of_key_in fs c : of_key fs c = true <-> In (c_name c) (map fd_name fs).
Proof.
  unfold of_key. rewrite existsb_exists, in_map_iff. split; intros [f [A B]]; exists f; [apply beq_eq in B|]; split; try assumption. now apply beq_eq.
Qed.
Lemma inner_none fs : forall j i cols c, nth_error cols i = Some c -> ~ In (c_name c) (map fd_name fs) -> move_inner fs j i cols = Ok cols.
Proof.
  induction fs as [|f fs IH]; intros j i cols c E H; [reflexivity|]. cbn [move_inner map In] in *. rewrite (index_nth _ _ _ E). cbn [bind].
  destruct (beq (fd_name f) (c_name c)) eqn:B; [apply beq_eq in B; tauto|]. cbn [bind]. apply (IH _ _ _ c E). tauto.
Qed.
Lemma inner_app fs gs : forall j i cols c, nth_error cols i = Some c -> ~ In (c_name c) (map fd_name fs) -> move_inner (fs ++ gs) j i cols = move_inner gs (j + List.length fs) i cols.
Proof.
  induction fs as [|f fs IH]; intros j i cols c E H; cbn [app List.length]; [now rewrite Nat.add_0_r|]. cbn [move_inner map In] in *. rewrite (index_nth _ _ _ E). cbn [bind].
  destruct (beq (fd_name f) (c_name c)) eqn:B; [apply beq_eq in B; tauto|]. cbn [bind]. rewrite (IH _ _ _ c E) by tauto. f_equal. lia.
Qed.
Lemma nodup_mid {A} (a b : list A) x : NoDup (a ++ x :: b) -> ~ In x a /\ ~ In x b /\ forall y, In y a -> ~ In y b.
Proof.
  intro H. pose proof (NoDup_remove_2 _ _ _ H) as N. apply NoDup_remove_1 in H. repeat split; [intro X; apply N, in_or_app; now left|intro X; apply N, in_or_app; now right|].
  intros y Ha Hb. clear N. induction a as [|z a IH]; [contradiction|]. cbn [app] in H. inversion H as [|? ? N1 N2]; subst. destruct Ha as [->|Ha]; [apply N1, in_or_app; now right|now apply IH].
Qed.
Lemma skip_more {A} (l : list A) : forall a b, skipn a (skipn b l) = skipn (b + a) l.
Proof. induction l as [|x l IH]; intros a b; [now rewrite !skipn_nil|]. destruct b as [|b]; [reflexivity|]. cbn [skipn plus]. apply IH. Qed.
Lemma ordered_go : forall suf pre ks fsd fsr, NoDup (map fd_name (fsd ++ fsr)) -> map c_name ks = map fd_name fsd -> (List.length ks <= List.length pre)%nat ->
  map c_name (filter (of_key (fsd ++ fsr)) suf) = map fd_name fsr ->
  move_outer (List.length suf) (List.length pre) (fsd ++ fsr) (rev ks ++ skipn (List.length ks) (pre ++ suf))
  = Ok (rev (ks ++ filter (of_key (fsd ++ fsr)) suf) ++ skipn (List.length (fsd ++ fsr)) (pre ++ suf)).
Proof.
  induction suf as [|c suf IH]; intros pre ks fsd fsr Hd Hk Hp Hf.
  - cbn [List.length filter map move_outer] in *. symmetry in Hf. apply map_eq_nil in Hf as ->. rewrite !app_nil_r. do 3 f_equal. rewrite <- (map_length c_name), Hk. apply map_length.
  - assert (Lk : List.length ks = List.length fsd) by (rewrite <- (map_length c_name), Hk; apply map_length).
    cbn [List.length move_outer]. set (i := List.length pre). set (cols := pre ++ c :: suf). set (st := rev ks ++ skipn (List.length ks) cols).
    assert (E : nth_error st i = Some c).
    { unfold st. rewrite nth_error_app2 by (rewrite rev_length; unfold i; lia). rewrite rev_length, nth_skipn. unfold cols, i. rewrite nth_error_app2 by lia.
      replace (List.length ks + (List.length pre - List.length ks) - List.length pre)%nat with 0%nat by lia. reflexivity. }
    assert (L : List.length st = List.length cols).
    { unfold st. rewrite app_length, rev_length, skipn_length. unfold cols. rewrite app_length. cbn [List.length]. lia. }
    assert (EC : cols = (pre ++ [c]) ++ suf) by (unfold cols; now rewrite <- app_assoc).
    assert (EI : S i = List.length (pre ++ [c])) by (rewrite app_length; cbn; unfold i; lia).
    cbn [filter] in *. destruct (of_key (fsd ++ fsr) c) eqn:Q.
    + destruct fsr as [|f fsr]; [discriminate Hf|]. cbn [map] in Hf. injection Hf as Hc Hf. pose proof Hd as Hd'. rewrite map_app in Hd'. cbn [map] in Hd'.
      destruct (nodup_mid _ _ _ Hd') as [N1 [N2 N3]].
      assert (EM : move_inner (fsd ++ f :: fsr) 0 i st = Ok (rev (ks ++ [c]) ++ skipn (List.length (ks ++ [c])) cols)).
      { rewrite (inner_app fsd _ 0 i st c E) by (now rewrite Hc). cbn [move_inner plus]. rewrite (index_nth _ _ _ E). cbn [bind]. rewrite Hc, beq_refl.
        assert (Lt : (List.length fsd < List.length st)%nat) by (rewrite L; unfold cols; rewrite app_length; cbn [List.length]; lia).
        replace ((List.length fsd <? List.length st)%nat) with true by lia. cbn [bind]. fold (moved (List.length fsd) c st).
        assert (ES : moved (List.length fsd) c st = rev (ks ++ [c]) ++ skipn (List.length (ks ++ [c])) cols).
        { unfold moved, st. rewrite <- Lk, rev_app_distr. cbn [rev app]. f_equal. rewrite firstn_app, skipn_app, rev_length, Nat.sub_diag. cbn [firstn]. rewrite app_nil_r, firstn_all2 by (rewrite rev_length; lia).
          f_equal. rewrite skipn_all2 by (rewrite rev_length; lia). cbn [app]. rewrite app_length. cbn [List.length]. replace (S (List.length ks) - List.length ks)%nat with 1%nat by lia.
          rewrite skip_more. reflexivity. }
        rewrite ES. assert (X : exists c', nth_error (rev (ks ++ [c]) ++ skipn (List.length (ks ++ [c])) cols) i = Some c' /\ In (c_name c') (map fd_name fsd ++ [fd_name f])).
        { destruct (Nat.eq_dec i (List.length ks)) as [Ei|Ni].
          - assert (Lr : (i < List.length (rev (ks ++ [c])))%nat) by (rewrite rev_length, app_length; cbn; lia). rewrite nth_error_app1 by exact Lr. apply nth_error_Some in Lr.
            destruct (nth_error (rev (ks ++ [c])) i) as [c'|] eqn:Ec; [|contradiction]. exists c'. split; [reflexivity|]. apply nth_error_In, in_rev in Ec. apply (in_map c_name) in Ec. rewrite map_app in Ec. cbn [map] in Ec.
            now rewrite <- Hk, <- Hc.
          - exists c. split; [|apply in_or_app; right; left; now symmetry]. rewrite nth_error_app2 by (rewrite rev_length, app_length; cbn; unfold i in *; lia). rewrite rev_length, nth_skipn, app_length. cbn [List.length].
            unfold cols. rewrite nth_error_app2 by (unfold i in *; lia). replace (_ - List.length pre)%nat with 0%nat by (unfold i in *; lia). reflexivity. }
        destruct X as [c' [X1 X2]]. apply (inner_none _ _ _ _ c' X1). apply in_app_or in X2 as [X2|[X2|[]]]; [now apply N3|now rewrite <- X2]. }
      rewrite EM. cbn [bind]. rewrite EI, EC. replace (fsd ++ f :: fsr) with ((fsd ++ [f]) ++ fsr) in * by (now rewrite <- app_assoc).
      rewrite (IH (pre ++ [c]) (ks ++ [c]) (fsd ++ [f]) fsr Hd); [now rewrite <- !app_assoc| |rewrite !app_length; cbn; lia|exact Hf].
      rewrite !map_app. cbn [map]. now rewrite Hk, Hc.
    + rewrite (inner_none _ 0 i st c E) by (rewrite <- of_key_in; congruence). cbn [bind]. unfold st. rewrite EI, EC. apply IH; try assumption. rewrite app_length. cbn. lia.
Qed.
Lemma move_ordered fs cols : NoDup (map fd_name fs) -> map c_name (filter (of_key fs) cols) = map fd_name fs ->
  moveColumns2First fs cols = Ok (rev (filter (of_key fs) cols) ++ skipn (List.length fs) cols).
Proof. intros Hd Hf. exact (ordered_go cols [] [] [] fs Hd eq_refl (le_n 0) Hf). Qed.

(** Of any key: the columns behind the first ones, as many as the key has, stay
    in place, and no others come in. *)
Lemma outer_incl fields : forall n i cols r, (i + n <= List.length cols)%nat -> (List.length fields <= List.length cols)%nat -> move_outer n i fields cols = Ok r -> incl r cols.
Proof.
  induction n as [|n IH]; intros i cols r H1 H2 E; cbn [move_outer] in E; [injection E as <-; apply incl_refl|].
  destruct (inner_keeps fields 0 i cols (List.length cols)) as [r1 [E1 [L1 [_ I1]]]]; [lia|lia|lia|]. rewrite E1 in E. cbn [bind] in E.
  rewrite firstn_all, firstn_all2 in I1 by lia. apply (incl_tran (m := r1)); [|exact I1]. apply (IH (S i) r1 r); [lia|lia|exact E].
Qed.
Lemma move_any fields cols : (List.length fields <= List.length cols)%nat ->
  exists r, moveColumns2First fields cols = Ok r /\ skipn (List.length fields) r = skipn (List.length fields) cols /\ incl r cols /\ List.length r = List.length cols.
Proof.
  intro H. unfold moveColumns2First. destruct (outer_any fields (List.length cols) 0 cols) as [r [E [L T]]]; [lia|lia|]. exists r. split; [exact E|]. split; [|split; [|exact L]].
  - apply nth_ext_error. intro p. rewrite !nth_skipn. apply T. lia.
  - now apply (outer_incl fields (List.length cols) 0 cols r).
Qed.
