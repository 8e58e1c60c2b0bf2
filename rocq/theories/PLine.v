(** Lemmas about the bytes of printed lines. *)
From Coq Require Import String ZifyBool.
From Verif Require Import GoBase Utils Ibdata Redo Cmd SpecInno SpecText SpecSql SpecRedo SpecRow SpecDict SpecTool SpecToolRedo SpecLine PBase PValue PText PSql.
Local Open Scope string_scope.
Local Open Scope list_scope.
Local Open Scope Z_scope.

(** * Escaping, for all lists *)
Lemma decode_any s r w : s <> [] -> decode_rune s = (r, w) ->
  (exists b t, s = b :: t /\ w = 1%nat /\ ((r = b /\ b < 128) \/ (r = 65533 /\ 128 <= b)))
  \/ (128 <= r /\ exists u v, s = u ++ v /\ List.length u = w /\ u <> [] /\ Forall (fun c => esc_of c = None) u).
Proof.
  intros Hn D. destruct s as [|b0 t]; [contradiction|]. cbn [decode_rune] in D.
  assert (L : 128 <= b0 -> (65533, 1%nat) = (r, w) -> (exists b t', b0 :: t = b :: t' /\ w = 1%nat /\ ((r = b /\ b < 128) \/ (r = 65533 /\ 128 <= b)))
    \/ (128 <= r /\ exists u v, b0 :: t = u ++ v /\ List.length u = w /\ u <> [] /\ Forall (fun c => esc_of c = None) u)).
  { intros H E. injection E as <- <-. left. exists b0, t. auto. }
  assert (C : forall b, is_cont b = true -> esc_of b = None).
  { intros b H. unfold esc_of. repeat (eqcase; [subst; discriminate H|]). reflexivity. }
  assert (C0 : 128 <= b0 -> esc_of b0 = None) by apply esc_high.
  destruct (Z.ltb_spec b0 128) as [H0|H0]; [injection D as <- <-; left; exists b0, t; auto|].
  destruct ((192 <=? b0) && (b0 <? 224)).
  { destruct t as [|b1 t]; [now apply L|]. destruct (is_cont b1) eqn:C1; [|now apply L]. match type of D with (if 127 <? ?x then _ else _) = _ => destruct (Z.ltb_spec 127 x) as [R|R] end; [|now apply L].
    pose proof (f_equal fst D) as Er. pose proof (f_equal snd D) as Ew. cbn [fst snd] in Er, Ew. subst w. right. split; [rewrite Er in R; lia|]. exists [b0; b1], t. split; [reflexivity|]. split; [reflexivity|]. split; [discriminate|]. repeat (constructor; [auto|]). constructor. }
  destruct ((224 <=? b0) && (b0 <? 240)).
  { destruct t as [|b1 [|b2 t]]; try now apply L. destruct (is_cont b1) eqn:C1; [|now apply L]. destruct (is_cont b2) eqn:C2; [|now apply L]. cbn [andb] in D.
    match type of D with (if (2047 <? ?x) && _ then _ else _) = _ => destruct (Z.ltb_spec 2047 x) as [R|R] end; [|now apply L].
    cbn [andb] in D. match type of D with (if ?x then _ else _) = _ => destruct x end; [|now apply L].
    pose proof (f_equal fst D) as Er. pose proof (f_equal snd D) as Ew. cbn [fst snd] in Er, Ew. subst w. right. split; [rewrite Er in R; lia|]. exists [b0; b1; b2], t. split; [reflexivity|]. split; [reflexivity|]. split; [discriminate|]. repeat (constructor; [auto|]). constructor. }
  destruct ((240 <=? b0) && (b0 <? 248)); [|now apply L].
  destruct t as [|b1 [|b2 [|b3 t]]]; try now apply L. destruct (is_cont b1) eqn:C1; [|now apply L]. destruct (is_cont b2) eqn:C2; [|now apply L]. destruct (is_cont b3) eqn:C3; [|now apply L]. cbn [andb] in D.
  match type of D with (if (65535 <? ?x) && _ then _ else _) = _ => destruct (Z.ltb_spec 65535 x) as [R|R] end; [|now apply L].
  cbn [andb] in D. match type of D with (if ?x then _ else _) = _ => destruct x end; [|now apply L].
  pose proof (f_equal fst D) as Er. pose proof (f_equal snd D) as Ew. cbn [fst snd] in Er, Ew. subst w. right. split; [rewrite Er in R; lia|]. exists [b0; b1; b2; b3], t. split; [reflexivity|]. split; [reflexivity|]. split; [discriminate|]. repeat (constructor; [auto|]). constructor.
Qed.
Lemma esc1_none u : Forall (fun c => esc_of c = None) u -> flat_map esc1 u = u.
Proof. induction 1 as [|c u H _ IH]; [reflexivity|]. cbn [flat_map]. unfold esc1 at 1. rewrite H, IH. reflexivity. Qed.
Lemma escape_fold_any f : forall pre s buf last, (List.length s <= f)%nat -> 0 <= last <= len pre ->
  let '(buf', last') := fold_left (escape_step (pre ++ s)) (range_aux f (len pre) s) (buf, last) in
  buf' ++ substr (pre ++ s) last' (len (pre ++ s)) = buf ++ substr (pre ++ s) last (len pre) ++ flat_map esc1 s.
Proof.
  induction f as [|f IH]; intros pre s buf last Hf Hl.
  { destruct s; [|cbn in Hf; lia]. cbn. rewrite !app_nil_r. reflexivity. }
  destruct s as [|b0 t0] eqn:Es; [cbn; rewrite !app_nil_r; reflexivity|]. rewrite <- Es in *. assert (Hne : s <> []) by (rewrite Es; discriminate).
  assert (ER : range_aux (S f) (len pre) s = let '(r, w) := decode_rune s in (len pre, r) :: range_aux f (len pre + Z.of_nat w) (skipn w s)) by (rewrite Es; reflexivity).
  rewrite ER. clear ER. destruct (decode_rune s) as [r w] eqn:D. cbn [fold_left].
  destruct (decode_any s r w Hne D) as [[b [t [E [-> Hr]]]]|[Hr [u [v [E [<- [Hu HU]]]]]]].
  - rewrite E in *. cbn [skipn]. clear Es b0 t0 D Hne. replace (len pre + Z.of_nat 1) with (len (pre ++ [b])) by (rewrite len_app; reflexivity).
    replace (pre ++ b :: t) with ((pre ++ [b]) ++ t) by (rewrite <- app_assoc; reflexivity).
    assert (Hf' : (List.length t <= f)%nat) by (cbn [List.length] in Hf; lia).
    unfold escape_step at 2. destruct (esc_of r) as [e|] eqn:Er.
    + assert (r = b /\ b < 128) as [-> Hb] by (destruct Hr as [Hr|[-> _]]; [exact Hr|discriminate Er]).
      specialize (IH (pre ++ [b]) t (buf ++ substr ((pre ++ [b]) ++ t) last (len pre) ++ e) (len pre + 1) Hf').
      destruct (fold_left _ _ _) as [buf' last']. rewrite IH by (rewrite len_app; change (len [b]) with 1; pose proof (len_nonneg pre); lia).
      replace (len pre + 1) with (len (pre ++ [b])) by (rewrite len_app; reflexivity). rewrite substr_nil. cbn [flat_map app]. unfold esc1 at 2. rewrite Er.
      rewrite <- !app_assoc. reflexivity.
    + specialize (IH (pre ++ [b]) t buf last Hf'). destruct (fold_left _ _ _) as [buf' last']. rewrite IH by (rewrite len_app; change (len [b]) with 1; lia).
      rewrite (substr_mid pre [b] t) by lia. cbn [flat_map]. assert (Eb : esc1 b = [b]).
      { unfold esc1. destruct Hr as [[-> _]|[-> Hb]]; [now rewrite Er|now rewrite esc_high]. }
      rewrite Eb, <- !app_assoc. reflexivity.
  - rewrite E in *. clear Es b0 t0 D Hne. rewrite skipn_app_len. unfold escape_step at 2. rewrite esc_high by exact Hr.
    replace (len pre + Z.of_nat (List.length u)) with (len (pre ++ u)) by (rewrite len_app; reflexivity). rewrite (app_assoc pre u v).
    assert (Hf' : (List.length v <= f)%nat) by (rewrite app_length in Hf; destruct u; [contradiction|]; cbn [List.length] in Hf; lia).
    specialize (IH (pre ++ u) v buf last Hf'). destruct (fold_left _ _ _) as [buf' last']. rewrite IH by (rewrite len_app; pose proof (len_nonneg u); lia).
    rewrite (substr_mid pre u v) by lia. rewrite flat_map_app, (esc1_none u HU), <- !app_assoc. reflexivity.
Qed.
Lemma escape_any s : EscapeValue s = if beq (flat_map esc1 s) magic then [] else flat_map esc1 s.
Proof.
  unfold EscapeValue, range_string.
  assert (G : forall buf last, fold_left (escape_step s) (range_aux (List.length s) 0 s) ([], 0) = (buf, last) -> buf ++ substr s last (len s) = flat_map esc1 s).
  { intros buf last E. pose proof (escape_fold_any (List.length s) [] s [] 0 (le_n _) ltac:(cbn; lia)) as H.
    cbn [app] in H. change (len (@nil Z)) with 0 in H. unfold bytes in *. rewrite E in H. exact H. }
  destruct (fold_left (escape_step s) (range_aux (List.length s) 0 s) ([], 0)) as [buf last] eqn:E. rewrite (G buf last eq_refl). reflexivity.
Qed.

(** * Lines without line ends *)
Lemma one_nil : one_line [].
Proof. intros c _ []. Qed.
Lemma one_app a b : one_line (a ++ b) <-> one_line a /\ one_line b.
Proof.
  unfold one_line. split; [intro H; split; intros c Hc X; apply (H c Hc), in_or_app; tauto|]. intros [H1 H2] c Hc X. apply in_app_or in X as [X|X]; [exact (H1 c Hc X)|exact (H2 c Hc X)].
Qed.
Definition calm (l : list Z) : bool := forallb (fun c => negb (existsb (Z.eqb c) line_bytes)) l.
Lemma calm_one l : calm l = true -> one_line l.
Proof.
  intros H c Hc X. unfold calm in H. rewrite forallb_forall in H. specialize (H c X). apply negb_true_iff in H. apply not_true_iff_false in H. apply H. apply existsb_exists. exists c. split; [exact Hc|lia].
Qed.
Lemma escape_one s : one_line (EscapeValue s).
Proof.
  rewrite escape_any. destruct (beq _ _); [exact one_nil|]. induction s as [|c s IH]; [exact one_nil|]. cbn [flat_map]. apply one_app. split; [|exact IH]. clear IH.
  unfold esc1, esc_of. repeat (eqcase; [apply calm_one; reflexivity|]). intros d Hd [<-|[]]. unfold line_bytes in Hd. cbn [In] in Hd. lia.
Qed.
Lemma column_one rt c : one_line (column_text rt c).
Proof.
  unfold column_text. rewrite !one_app. repeat split.
  - destruct (_ =? _); apply calm_one; reflexivity.
  - destruct (c_binary c); apply calm_one; reflexivity.
  - destruct (negb _); [rewrite !one_app; repeat split; [apply calm_one; reflexivity|apply escape_one|apply calm_one; reflexivity]|apply calm_one; reflexivity].
  - destruct (c_binary c); apply calm_one; reflexivity.
Qed.
Lemma columns_one rt first cs : one_line (columns_text rt first cs).
Proof.
  revert first. induction cs as [|c cs IH]; intro first; cbn [columns_text]; [exact one_nil|]. destruct (internal_name _); [apply IH|]. rewrite !one_app. repeat split; [|apply column_one|apply IH].
  destruct first; apply calm_one; reflexivity.
Qed.
Lemma statement_one rt tb db row : one_line db -> one_line tb -> one_line (replace_statement rt tb db row).
Proof. intros H1 H2. unfold replace_statement. rewrite !one_app. repeat split; try assumption; try (apply calm_one; reflexivity). apply columns_one. Qed.

(** * UPDATEs *)
Lemma in_joined c sep : ~ In c sep -> forall ls, In c (joined sep ls) <-> exists l, In l ls /\ In c l.
Proof.
  intros Hs ls. induction ls as [|l ls IH]; cbn [joined]; [split; [intros []|intros [l [[] _]]]|].
  destruct ls as [|m ls]; [split; [intro H; exists l; split; [now left|exact H]|intros [k [[<-|[]] H]]; exact H]|].
  rewrite !in_app_iff, IH. split.
  - intros [H|[H|[k [Hk H]]]]; [exists l; split; [now left|exact H]|contradiction|exists k; split; [now right|exact H]].
  - intros [k [[<-|Hk] H]]; [now left|right; right; exists k; split; assumption].
Qed.
