(** What moveColumns2First makes of a key of two columns. *)
From Coq Require Import ZifyBool.
From Verif Require Import GoBase Utils Ibdata SpecInno SpecDict PBase PDict PMove.
Local Open Scope list_scope.

Section Pair.
Variables (f1 f2 : Field).
Hypothesis Hne : fd_name f1 <> fd_name f2.
Definition in_pair (c : Column) : Prop := c_name c = fd_name f1 \/ c_name c = fd_name f2.
Lemma beq_no a b : a <> b -> beq a b = false.
Proof. intro H. apply not_true_iff_false. rewrite beq_eq. exact H. Qed.
Lemma pair_none i cols c : nth_error cols i = Some c -> ~ in_pair c -> move_inner [f1; f2] 0 i cols = Ok cols.
Proof.
  intros E H. cbn [move_inner]. rewrite (index_nth _ _ _ E). cbn [bind]. rewrite beq_no by (intro X; apply H; left; now symmetry). cbn [bind].
  rewrite (index_nth _ _ _ E). cbn [bind]. rewrite beq_no by (intro X; apply H; right; now symmetry). reflexivity.
Qed.
Lemma pair_first i cols c : nth_error cols i = Some c -> c_name c = fd_name f1 -> move_inner [f1; f2] 0 i cols = Ok (moved 0 c cols).
Proof.
  intros E H. assert (L : (i < List.length cols)%nat) by (apply nth_error_Some; congruence). cbn [move_inner]. rewrite (index_nth _ _ _ E). cbn [bind]. rewrite H, beq_refl.
  replace ((0 <? List.length cols)%nat) with true by lia. cbn [bind]. change (c :: firstn 0 cols ++ skipn 1 cols) with (moved 0 c cols).
  assert (E2 : nth_error (moved 0 c cols) i = Some c) by (destruct i as [|i]; [reflexivity|rewrite moved_above by lia; exact E]).
  rewrite (index_nth _ _ _ E2). cbn [bind]. rewrite H, beq_no by congruence. reflexivity.
Qed.
Lemma pair_second i cols c : (2 <= List.length cols)%nat -> nth_error cols i = Some c -> c_name c = fd_name f2 -> move_inner [f1; f2] 0 i cols = Ok (moved 1 c cols).
Proof.
  intros L E H. cbn [move_inner]. rewrite (index_nth _ _ _ E). cbn [bind]. rewrite H, beq_no by exact Hne. cbn [bind].
  rewrite (index_nth _ _ _ E). cbn [bind]. rewrite H, beq_refl. replace ((1 <? List.length cols)%nat) with true by lia. reflexivity.
Qed.
Lemma pair_skip : forall mid pre post, Forall (fun c => ~ in_pair c) mid -> move_outer (List.length mid) (List.length pre) [f1; f2] (pre ++ mid ++ post) = Ok (pre ++ mid ++ post).
Proof.
  induction mid as [|c mid IH]; intros pre post H; [reflexivity|]. inversion H as [|? ? H1 H2]; subst. cbn [List.length move_outer].
  rewrite (pair_none _ _ c); [|rewrite nth_error_app2, Nat.sub_diag by lia; reflexivity|exact H1]. cbn [bind].
  specialize (IH (pre ++ [c]) post H2). rewrite app_length in IH. cbn [List.length] in IH. rewrite Nat.add_1_r, <- app_assoc in IH. exact IH.
Qed.
Lemma pair_skip_to n pre mid post : n = List.length mid -> Forall (fun c => ~ in_pair c) mid -> move_outer n (List.length pre) [f1; f2] (pre ++ mid ++ post) = Ok (pre ++ mid ++ post).
Proof. intros ->. apply pair_skip. Qed.

(** the columns in the order of the key *)
Lemma pair_forward a x1 b x2 c : c_name x1 = fd_name f1 -> c_name x2 = fd_name f2 -> Forall (fun c => ~ in_pair c) (a ++ b ++ c) ->
  moveColumns2First [f1; f2] (a ++ x1 :: b ++ x2 :: c) = Ok (x2 :: x1 :: skipn 2 (a ++ x1 :: b ++ x2 :: c)).
Proof.
  intros H1 H2 HN. apply Forall_app in HN as [Na HN]. apply Forall_app in HN as [Nb Nc]. unfold moveColumns2First.
  set (cols := a ++ x1 :: b ++ x2 :: c). assert (L : List.length cols = (List.length a + S (List.length b + S (List.length c)))%nat) by (unfold cols; rewrite app_length; cbn [List.length]; rewrite app_length; reflexivity).
  rewrite L, outer_app. change cols with ([] ++ a ++ x1 :: b ++ x2 :: c) at 1. change 0%nat with (List.length (@nil Column)) at 1. rewrite (pair_skip a [] _ Na). cbn [bind app]. fold cols.
  cbn [move_outer plus]. rewrite (pair_first _ _ x1); [|unfold cols; rewrite nth_error_app2, Nat.sub_diag by lia; reflexivity|exact H1]. cbn [bind].
  set (S1 := moved 0 x1 cols). assert (E1 : exists pre, List.length pre = S (List.length a) /\ S1 = pre ++ b ++ x2 :: c).
  { unfold S1, moved, cols. cbn [firstn app skipn]. destruct a as [|a0 a]; cbn [app skipn]; [exists [x1]; split; reflexivity|]. exists (x1 :: a ++ [x1]). cbn [List.length]. rewrite app_length. cbn [List.length]. split; [lia|].
    cbn [app]. rewrite <- app_assoc. reflexivity. }
  destruct E1 as [pre [Lp E1]]. rewrite outer_app. change (0 + List.length a)%nat with (List.length a). rewrite E1, <- Lp. rewrite (pair_skip b pre _ Nb). cbn [bind].
  cbn [move_outer]. assert (L1 : (2 <= List.length (pre ++ b ++ x2 :: c))%nat) by (rewrite !app_length, Lp; cbn [List.length]; lia).
  rewrite (pair_second _ _ x2); [|exact L1| |exact H2].
  2:{ rewrite app_assoc, nth_error_app2, app_length, Nat.sub_diag by (rewrite app_length; lia). reflexivity. }
  cbn [bind]. rewrite <- E1. assert (E2 : moved 1 x2 S1 = x2 :: x1 :: skipn 2 cols) by (unfold S1, moved; destruct cols as [|? [|? ?]]; reflexivity).
  rewrite E2. set (S2 := x2 :: x1 :: skipn 2 cols). assert (E3 : exists pre2, List.length pre2 = S (List.length pre + List.length b) /\ S2 = pre2 ++ c).
  { exists (x2 :: x1 :: skipn 2 (a ++ x1 :: b ++ [x2])). assert (EC : cols = (a ++ x1 :: b ++ [x2]) ++ c) by (unfold cols; rewrite <- app_assoc; cbn [app]; rewrite <- app_assoc; reflexivity).
    assert (LL : List.length (a ++ x1 :: b ++ [x2]) = (List.length a + S (List.length b + 1))%nat) by (rewrite app_length; cbn [List.length]; rewrite app_length; reflexivity).
    cbn [List.length]. rewrite skipn_length, LL. split; [lia|]. unfold S2. rewrite EC, skipn_app, LL. replace (2 - (List.length a + S (List.length b + 1)))%nat with 0%nat by lia. reflexivity. }
  destruct E3 as [pre2 [Lp2 E3]]. rewrite E3, <- Lp2. pose proof (pair_skip c pre2 [] Nc) as X; rewrite app_nil_r in X; exact X.
Qed.
(** against it *)
Lemma pair_backward a x2 b x1 c : c_name x1 = fd_name f1 -> c_name x2 = fd_name f2 -> Forall (fun c => ~ in_pair c) (a ++ b ++ c) ->
  moveColumns2First [f1; f2] (a ++ x2 :: b ++ x1 :: c)
  = Ok (match a, b with [], [] => x2 :: x2 :: c | [], b0 :: b' => x1 :: x2 :: b' ++ x1 :: c | a0 :: _, _ => x1 :: a0 :: skipn 2 (a ++ x2 :: b ++ x1 :: c) end).
Proof.
  intros H1 H2 HN. apply Forall_app in HN as [Na HN]. apply Forall_app in HN as [Nb Nc]. unfold moveColumns2First.
  set (cols := a ++ x2 :: b ++ x1 :: c). assert (L : List.length cols = (List.length a + S (List.length b + S (List.length c)))%nat) by (unfold cols; rewrite app_length; cbn [List.length]; rewrite app_length; reflexivity).
  rewrite L, outer_app. change cols with ([] ++ a ++ x2 :: b ++ x1 :: c) at 1. change 0%nat with (List.length (@nil Column)) at 1. rewrite (pair_skip a [] _ Na). cbn [bind app]. fold cols.
  cbn [move_outer plus]. rewrite (pair_second _ _ x2); [|lia|unfold cols; rewrite nth_error_app2, Nat.sub_diag by lia; reflexivity|exact H2]. cbn [bind].
  destruct a as [|a0 a].
  - unfold moved, cols. cbn [app firstn skipn List.length plus]. destruct b as [|b0 b].
    + cbn [app List.length plus skipn move_outer]. rewrite (pair_second _ _ x2); [|cbn; lia|reflexivity|exact H2]. cbn [bind moved firstn skipn app].
      exact (pair_skip_to (List.length c) [x2; x2] c [] eq_refl Nc) || (pose proof (pair_skip c [x2; x2] [] Nc) as X; rewrite app_nil_r in X; exact X).
    + inversion Nb as [|? ? Nb0 Nb']; subst. cbn [app List.length plus skipn move_outer]. rewrite (pair_second _ _ x2); [|cbn; lia|reflexivity|exact H2]. cbn [bind moved firstn skipn app].
      rewrite outer_app. pose proof (pair_skip b [x2; x2] (x1 :: c) Nb') as Y. cbn [List.length app] in Y. change (moved 1 x2 (x2 :: x2 :: b ++ x1 :: c)) with (x2 :: x2 :: b ++ x1 :: c). rewrite Y. clear Y. change (x2 :: x2 :: b ++ x1 :: c) with ([x2; x2] ++ b ++ x1 :: c). cbn [bind move_outer].
      rewrite (pair_first _ _ x1); [|rewrite app_assoc, nth_error_app2 by (rewrite app_length; cbn; lia); rewrite app_length; cbn [List.length]; rewrite Nat.sub_diag; reflexivity|exact H1]. cbn [bind].
      change (moved 0 x1 ([x2; x2] ++ b ++ x1 :: c)) with (x1 :: x2 :: b ++ x1 :: c).
      pose proof (pair_skip c (x1 :: x2 :: b ++ [x1]) [] Nc) as X. rewrite app_nil_r in X. cbn [List.length app] in X. rewrite app_length in X. cbn [List.length] in X. rewrite <- app_assoc in X. cbn [app] in X.
      replace (S (2 + List.length b)) with (S (S (List.length b + 1))) by lia. exact X.
  - inversion Na as [|? ? Na0 Na']; subst. cbn [List.length plus].
    set (S1 := moved 1 x2 cols). assert (ES : S1 = x2 :: a0 :: skipn 2 cols) by (unfold S1, moved, cols; destruct a; reflexivity).
    assert (E1 : exists pre, List.length pre = S (S (List.length a)) /\ S1 = pre ++ b ++ x1 :: c).
    { rewrite ES. unfold cols. destruct a as [|a1 a]; cbn [app skipn]; [exists [x2; a0]; split; reflexivity|]. exists (x2 :: a0 :: a ++ [x2]). cbn [List.length]. rewrite app_length. cbn [List.length]. split; [lia|].
      cbn [app]. rewrite <- app_assoc. reflexivity. }
    destruct E1 as [pre [Lp E1]]. rewrite outer_app. rewrite E1, <- Lp. rewrite (pair_skip b pre _ Nb). cbn [bind move_outer].
    rewrite (pair_first _ _ x1); [| |exact H1].
    2:{ rewrite app_assoc, nth_error_app2, app_length, Nat.sub_diag by (rewrite app_length; lia). reflexivity. }
    cbn [bind]. rewrite <- E1. assert (E2 : moved 0 x1 S1 = x1 :: a0 :: skipn 2 cols) by (rewrite ES; reflexivity). rewrite E2.
    set (S2 := x1 :: a0 :: skipn 2 cols). assert (E3 : exists pre2, List.length pre2 = S (List.length pre + List.length b) /\ S2 = pre2 ++ c).
    { set (fr := (a0 :: a) ++ x2 :: b ++ [x1]). exists (x1 :: a0 :: skipn 2 fr). assert (EC : cols = fr ++ c) by (unfold cols, fr; rewrite <- app_assoc; cbn [app]; rewrite <- app_assoc; reflexivity).
      assert (LL : List.length fr = (S (List.length a) + S (List.length b + 1))%nat) by (unfold fr; rewrite app_length; cbn [List.length]; rewrite app_length; reflexivity).
      cbn [List.length]. rewrite skipn_length, LL. split; [lia|]. unfold S2. rewrite EC, skipn_app, LL. replace (2 - (S (List.length a) + S (List.length b + 1)))%nat with 0%nat by lia. reflexivity. }
    destruct E3 as [pre2 [Lp2 E3]]. rewrite E3, <- Lp2. pose proof (pair_skip c pre2 [] Nc) as X; rewrite app_nil_r in X; exact X.
Qed.
End Pair.
