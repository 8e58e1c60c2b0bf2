(** Exactly which keys moveColumns2First moves to the front. *)
From Coq Require Import ZifyBool.
From Verif Require Import GoBase Utils Ibdata SpecInno SpecDict PBase PDict.
Local Open Scope list_scope.

Definition moved {A} (j : nat) (x : A) (l : list A) : list A := x :: firstn j l ++ skipn (S j) l.
Lemma moved_length {A} j (x : A) l : (j < List.length l)%nat -> List.length (moved j x l) = List.length l.
Proof. intro H. unfold moved. cbn [List.length]. rewrite app_length, firstn_length, skipn_length. lia. Qed.
Lemma moved_above {A} j (x : A) l p : (j < List.length l)%nat -> (j < p)%nat -> nth_error (moved j x l) p = nth_error l p.
Proof.
  intros H Hp. unfold moved. destruct p as [|p]; [lia|].
  change (nth_error (x :: firstn j l ++ skipn (S j) l) (S p)) with (nth_error (firstn j l ++ skipn (S j) l) p). rewrite nth_error_app2 by (rewrite firstn_length; lia). rewrite firstn_length.
  assert (X : forall q, nth_error (skipn (S j) l) q = nth_error l (S j + q)).
  { intro q. rewrite <- (firstn_skipn (S j) l) at 2. rewrite nth_error_app2 by (rewrite firstn_length; lia). rewrite firstn_length. f_equal. lia. }
  rewrite X. f_equal. lia.
Qed.
Lemma moved_below {A} j (x : A) l m : (j < List.length l)%nat -> (j < m)%nat -> In x (firstn m l) -> incl (firstn m (moved j x l)) (firstn m l).
Proof.
  intros H Hm Hx y Hy. destruct m as [|m]; [lia|]. unfold moved in Hy. cbn [firstn] in Hy. destruct Hy as [<-|Hy]; [exact Hx|].
  rewrite firstn_app, firstn_firstn, firstn_length in Hy. apply in_app_or in Hy as [Hy|Hy].
  - replace (Nat.min m j) with j in Hy by lia. rewrite <- (firstn_skipn j (firstn (S m) l)). apply in_or_app. left. rewrite firstn_firstn. now replace (Nat.min j (S m)) with j by lia.
  - replace (m - Nat.min j (List.length l))%nat with (m - j)%nat in Hy by lia. rewrite <- (firstn_skipn (S j) (firstn (S m) l)). apply in_or_app. right.
    rewrite skipn_firstn_comm. now replace (S m - S j)%nat with (m - j)%nat by lia.
Qed.
(** What an inner loop keeps: the length, everything from place [m] on, and
    that the first [m] columns are among the first [m] of before. *)
Definition keeps (m : nat) (a b : list Column) : Prop :=
  List.length b = List.length a /\ (forall p, (m <= p)%nat -> nth_error b p = nth_error a p) /\ incl (firstn m b) (firstn m a).
Lemma keeps_refl m a : keeps m a a. Proof. split; [reflexivity|]. split; [reflexivity|]. apply incl_refl. Qed.
Lemma keeps_trans m a b c : keeps m a b -> keeps m b c -> keeps m a c.
Proof. intros [A1 [A2 A3]] [B1 [B2 B3]]. split; [congruence|]. split; [intros p Hp; rewrite B2, A2 by assumption; reflexivity|]. eapply incl_tran; eassumption. Qed.
Lemma nth_firstn_in {A} (l : list A) i m x : nth_error l i = Some x -> (i < m)%nat -> In x (firstn m l).
Proof.
  intros H Hi. apply nth_error_In with i. rewrite <- H. rewrite <- (firstn_skipn m l) at 2. assert (i < List.length l)%nat by (apply nth_error_Some; congruence).
  symmetry. apply nth_error_app1. rewrite firstn_length. lia.
Qed.
Lemma inner_keeps fs : forall j i cols m, (j + List.length fs <= m)%nat -> (m <= List.length cols)%nat -> (i < m)%nat ->
  exists r, move_inner fs j i cols = Ok r /\ keeps m cols r.
Proof.
  induction fs as [|f fs IH]; intros j i cols m H1 H2 H3; cbn [move_inner List.length] in *; [exists cols; split; [reflexivity|apply keeps_refl]|].
  destruct (nth_error cols i) as [c|] eqn:E; [|apply nth_error_None in E; lia]. rewrite (index_nth _ _ _ E). cbn [bind].
  destruct (beq (fd_name f) (c_name c)); cbn [bind].
  - replace ((j <? List.length cols)%nat) with true by lia. cbn [bind]. fold (moved j c cols). pose proof (moved_length j c cols ltac:(lia)) as L.
    destruct (IH (S j) i (moved j c cols) m) as [r [E1 E2]]; [lia|lia|lia|]. exists r. split; [exact E1|]. eapply keeps_trans; [|exact E2].
    split; [exact L|]. split; [intros p Hp; apply moved_above; lia|]. apply moved_below; [lia|lia|]. eapply nth_firstn_in; eassumption.
  - apply IH; lia.
Qed.
Lemma outer_app n k : forall i fields cols, move_outer (n + k) i fields cols = bind (move_outer n i fields cols) (move_outer k (i + n) fields).
Proof.
  induction n as [|n IH]; intros i fields cols; [cbn; now rewrite Nat.add_0_r|]. cbn [plus move_outer]. destruct (move_inner fields 0 i cols) as [x| |]; cbn [bind]; [|reflexivity|reflexivity].
  rewrite IH. now replace (S i + n)%nat with (i + S n)%nat by lia.
Qed.
Lemma inner_any fs : forall j i cols, (i < List.length cols)%nat -> (j + List.length fs <= List.length cols)%nat ->
  exists r, move_inner fs j i cols = Ok r /\ List.length r = List.length cols /\ (forall p, (j + List.length fs <= p)%nat -> nth_error r p = nth_error cols p).
Proof.
  induction fs as [|f fs IH]; intros j i cols H1 H2; cbn [move_inner List.length] in *; [exists cols; repeat split|].
  destruct (nth_error cols i) as [c|] eqn:E; [|apply nth_error_None in E; lia]. rewrite (index_nth _ _ _ E). cbn [bind].
  destruct (beq (fd_name f) (c_name c)); cbn [bind].
  - replace ((j <? List.length cols)%nat) with true by lia. cbn [bind]. fold (moved j c cols). pose proof (moved_length j c cols ltac:(lia)) as L.
    destruct (IH (S j) i (moved j c cols)) as [r [E1 [E2 E3]]]; [lia|lia|]. exists r. split; [exact E1|]. split; [congruence|]. intros p Hp. rewrite E3 by lia. apply moved_above; lia.
  - destruct (IH (S j) i cols) as [r [E1 [E2 E3]]]; [lia|lia|]. exists r. split; [exact E1|]. split; [exact E2|]. intros p Hp. apply E3. lia.
Qed.
Lemma outer_any fields : forall n i cols, (i + n <= List.length cols)%nat -> (List.length fields <= List.length cols)%nat ->
  exists r, move_outer n i fields cols = Ok r /\ List.length r = List.length cols /\ (forall p, (List.length fields <= p)%nat -> nth_error r p = nth_error cols p).
Proof.
  induction n as [|n IH]; intros i cols H1 H2; cbn [move_outer]; [exists cols; repeat split|].
  destruct (inner_any fields 0 i cols) as [r [E1 [E2 E3]]]; [lia|lia|]. rewrite E1. cbn [bind]. destruct (IH (S i) r) as [r' [F1 [F2 F3]]]; [lia|lia|].
  exists r'. split; [exact F1|]. split; [congruence|]. intros p Hp. rewrite F3, E3 by lia. reflexivity.
Qed.
(** * The key first *)
Lemma filter_one key cols : NoDup (map c_name cols) -> In key (map c_name cols) -> exists c, filter (named key) cols = [c] /\ c_name c = key.
Proof.
  intros Hd Hi. induction cols as [|c cols IH]; [contradiction|]. cbn [map] in *. inversion Hd as [|? ? Hn Hd']; subst. cbn [filter].
  destruct (named key c) eqn:E.
  - apply named_eq in E. exists c. split; [|exact E]. f_equal. apply filter_none. intros x Hx. apply not_true_iff_false. rewrite named_eq. intro X. apply Hn. rewrite E, <- X. now apply in_map.
  - destruct Hi as [Hi|Hi]; [|now apply IH]. exfalso. apply (proj2 (named_eq key c)) in Hi. congruence.
Qed.
Lemma key_part keys cols : NoDup (map c_name cols) -> incl keys (map c_name cols) -> map c_name (flat_map (fun n => filter (named n) cols) keys) = keys.
Proof.
  intros Hd Hi. induction keys as [|k keys IH]; [reflexivity|]. cbn [flat_map]. destruct (filter_one k cols Hd (Hi k (or_introl eq_refl))) as [c [E En]]. rewrite E.
  cbn [app map]. rewrite En. f_equal. apply IH. intros x Hx. apply Hi. now right.
Qed.
Lemma nth_skipn {A} (l : list A) : forall m p, nth_error (skipn m l) p = nth_error l (m + p).
Proof. induction l as [|x l IH]; intros [|m] p; cbn; try reflexivity; [now destruct p|apply IH]. Qed.
Lemma nth_ext_error {A} (a b : list A) : (forall p, nth_error a p = nth_error b p) -> a = b.
Proof.
  revert b. induction a as [|x a IH]; intros [|y b] H; [reflexivity|specialize (H 0%nat); discriminate|specialize (H 0%nat); discriminate|].
  pose proof (H 0%nat) as H0. cbn in H0. injection H0 as ->. f_equal. apply IH. intro p. exact (H (S p)).
Qed.
Lemma move_total fields cols : (List.length fields <= List.length cols)%nat -> exists r, moveColumns2First fields cols = Ok r /\ List.length r = List.length cols.
Proof. intro H. destruct (outer_any fields (List.length cols) 0 cols) as [r [E1 [E2 _]]]; [lia|lia|]. exists r. split; assumption. Qed.
(** If the result is right, the key is the first column alone. *)
Lemma move_right fields cols : NoDup (map c_name cols) -> NoDup (map fd_name fields) -> incl (map fd_name fields) (map c_name cols) ->
  moveColumns2First fields cols = Ok (key_first (map fd_name fields) cols) -> (List.length fields <= 1)%nat /\ Forall2 (fun f c => fd_name f = c_name c) fields (firstn (List.length fields) cols).
Proof.
  intros Hd Hf Hi E. set (m := List.length fields) in *.
  assert (Hm : (m <= List.length cols)%nat) by (unfold m; rewrite <- (map_length fd_name), <- (map_length c_name cols); now apply NoDup_incl_length).
  set (K := flat_map (fun n => filter (named n) cols) (map fd_name fields)). set (R := filter (fun c => negb (existsb (fun n => named n c) (map fd_name fields))) cols).
  assert (EK : map c_name K = map fd_name fields) by now apply key_part.
  assert (LK : List.length K = m) by (rewrite <- (map_length c_name), EK; apply map_length).
  change (key_first (map fd_name fields) cols) with (K ++ R) in E.
  unfold moveColumns2First in E. destruct (outer_any fields (List.length cols) 0 cols) as [r [E1 [E2 E3]]]; [lia|exact Hm|]. rewrite E in E1. injection E1 as <-. fold m in E3.
  assert (ER : skipn m cols = R).
  { apply nth_ext_error. intro p. rewrite nth_skipn, <- E3 by lia. rewrite nth_error_app2 by lia. f_equal. lia. }
  assert (Hkey : forall c, In c (firstn m cols) -> In (c_name c) (map fd_name fields)).
  { assert (X : filter (fun c => negb (existsb (fun n => named n c) (map fd_name fields))) (firstn m cols) = []).
    { assert (Y : R = filter (fun c => negb (existsb (fun n => named n c) (map fd_name fields))) (firstn m cols) ++ R).
      { unfold R at 1. rewrite <- (firstn_skipn m cols) at 1. rewrite filter_app. f_equal. rewrite ER. unfold R. apply filter_all. intros x Hx. now apply filter_In in Hx. }
      apply (f_equal (@List.length Column)) in Y. rewrite app_length in Y. apply length_zero_iff_nil. lia. }
    intros c Hc. destruct (existsb (fun n => named n c) (map fd_name fields)) eqn:Ex.
    - apply existsb_exists in Ex as [n [Hn En]]. apply named_eq in En. now rewrite En.
    - exfalso. assert (Z : In c []); [|exact Z]. rewrite <- X. apply filter_In. split; [exact Hc|]. now rewrite Ex. }
  assert (Hrest : forall j c, (m <= j)%nat -> nth_error cols j = Some c -> forall f, In f fields -> fd_name f <> c_name c).
  { intros j c Hj Hc f Hin Heq. assert (Y : In c R) by (rewrite <- ER; apply nth_error_In with (j - m)%nat; rewrite nth_skipn; now replace (m + (j - m))%nat with j by lia).
    apply filter_In in Y as [_ Y]. rewrite negb_true_iff in Y. apply not_true_iff_false in Y. apply Y, existsb_exists. exists (c_name c). split; [rewrite <- Heq; now apply in_map|now apply named_eq]. }
  destruct m as [|m'] eqn:Em.
  { split; [lia|]. unfold m in Em. destruct fields; [constructor|discriminate]. }
  (* the last inner loop that can do anything *)
  replace (List.length cols) with (m' + S (List.length cols - S m'))%nat in E by lia. rewrite outer_app in E.
  assert (Ek : exists St, move_outer m' 0 fields cols = Ok St /\ keeps (S m') cols St).
  { fold m in Em. replace (S m') with m by exact Em. clear E. assert (G : forall n i c, (i + n <= m)%nat -> keeps m cols c -> exists r, move_outer n i fields c = Ok r /\ keeps m cols r).
    { induction n as [|n IH]; intros i c Hin HK; cbn [move_outer]; [exists c; split; [reflexivity|exact HK]|].
      destruct (inner_keeps fields 0 i c m) as [r [F1 F2]]; [unfold m; lia|destruct HK as [Hl _]; rewrite Hl; rewrite Em; lia|lia|]. rewrite F1. cbn [bind]. apply IH; [lia|]. eapply keeps_trans; eassumption. }
    apply (G m' 0%nat cols); [lia|apply keeps_refl]. }
  destruct Ek as [St [Es [L1 [L2 L3]]]]. rewrite Es in E. cbn [bind plus move_outer] in E.
  destruct (nth_error St m') as [v|] eqn:Ev; [|apply nth_error_None in Ev; lia].
  assert (Hv : In (c_name v) (map fd_name fields)) by (apply Hkey, L3; eapply nth_firstn_in; [exact Ev|lia]).
  apply in_map_iff in Hv as [f [Fv Hv]]. apply in_split in Hv as [f1 [f2 Ef]].
  assert (N1 : forall g, In g f1 -> fd_name g <> c_name v) by (intros g Hg X; rewrite Ef, map_app in Hf; cbn [map] in Hf; apply NoDup_remove_2 in Hf; apply Hf, in_or_app; left; rewrite Fv, <- X; now apply in_map).
  assert (N2 : forall g, In g f2 -> fd_name g <> c_name v) by (intros g Hg X; rewrite Ef, map_app in Hf; cbn [map] in Hf; apply NoDup_remove_2 in Hf; apply Hf, in_or_app; right; rewrite Fv, <- X; now apply in_map).
  assert (Lf : (List.length f1 + S (List.length f2) = S m')%nat) by (fold m in Em; rewrite <- Em; unfold m; rewrite Ef, app_length; reflexivity).
  assert (EI : move_inner fields 0 m' St = Ok (moved (List.length f1) v St)).
  { rewrite Ef, (inner_app f1 (f :: f2) 0 m' St v Ev N1). rewrite Nat.add_0_r. cbn [move_inner]. rewrite (index_nth _ _ _ Ev). cbn [bind]. rewrite (proj2 (name_eq _ _) Fv).
    replace ((List.length f1 <? List.length St)%nat) with true by lia. cbn [bind]. fold (moved (List.length f1) v St).
    destruct f2 as [|g f2]; [reflexivity|]. apply (inner_skip _ _ _ _ v); [|exact N2]. cbn [List.length] in Lf. rewrite moved_above by lia. exact Ev. }
  rewrite EI in E. cbn [bind] in E. set (T := moved (List.length f1) v St) in *.
  assert (LT : List.length T = List.length cols) by (unfold T; rewrite moved_length; lia).
  rewrite outer_skip in E.
  2:{ intros j c Hj Hc. apply (Hrest j c); [lia|]. rewrite <- Hc. unfold T. rewrite moved_above, L2 by lia. reflexivity. }
  2:{ lia. }
  injection E as ET.
  assert (T0 : nth_error T 0 = Some v) by reflexivity.
  assert (NK : forall p c, (p < S m')%nat -> nth_error T p = Some c -> nth_error (map fd_name fields) p = Some (c_name c)).
  { intros p c Hp Hc. rewrite ET, nth_error_app1 in Hc by lia. rewrite <- EK. now apply map_nth_error. }
  destruct (Nat.eq_dec (List.length f1) m') as [Ej|Ej].
  - (* the last field: it comes out first *)
    assert (X : nth_error (map fd_name fields) m' = Some (c_name v)).
    { rewrite Ef, map_app, nth_error_app2 by (rewrite map_length; lia). rewrite map_length, Ej, Nat.sub_diag. cbn. now rewrite Fv. }
    pose proof (names_distinct _ 0 m' (c_name v) Hf (NK 0%nat v ltac:(lia) T0) X) as Y. split; [lia|]. destruct m' as [|m']; [|discriminate Y].
    fold m in Em. unfold m in Em. destruct fields as [|f0 [|? ?]]; cbn in Em; try discriminate Em.
    assert (Eh : hd_error cols = Some v).
    { cbn in Es. injection Es as <-. destruct cols; [discriminate Ev|]. exact Ev. }
    destruct cols as [|c0 cols]; [discriminate Eh|]. cbn in Eh. injection Eh as ->. cbn [firstn]. constructor; [|constructor].
    destruct f1; [|cbn in Ej; discriminate]. cbn in Ef. injection Ef as <- _. exact Fv.
  - (* another one: it comes out twice *)
    exfalso. assert (Tm : nth_error T m' = Some v) by (unfold T; rewrite moved_above by lia; exact Ev).
    pose proof (names_distinct _ 0 m' (c_name v) Hf (NK 0%nat v ltac:(lia) T0) (NK m' v ltac:(lia) Tm)). lia.
Qed.
