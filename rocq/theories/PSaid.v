(** Logs of which every update is printed as some update, not always the same. *)
From Coq Require Import ZifyBool.
From Verif Require Import GoBase Utils Ibdata Redo Cmd SpecInno SpecText SpecSql SpecRecord SpecRow SpecPage SpecDict SpecTool SpecRedo SpecUndo SpecToolRedo SpecCmd
  PBase PWire PValue PText PRec PPage PSql PFile PDict PUndo PLog PTool PToolRedo PropCmd PropRedo.
Local Open Scope list_scope.

Definition said_as (rt : runtime) (tm : gomap Table) (said : update -> update -> Prop) (ok : undo -> update -> Prop) (d : dictionary) : Prop :=
  forall u w m, undo_ok u -> datetime_room w m -> undo_of rt d u w -> ok u w ->
  exists w' e key, (un_type u = UNDO_UPDATE -> said w w') /\ mget tm (un_table u) = Some e /\ t_db e = up_db w /\ t_name e = up_tb w /\ up_db w' = up_db w /\ up_tb w' = up_tb w
    /\ key_names e (map cd_name (map fst (up_key w))) /\ key_shown rt e (map cd_name (map fst (up_key w))) (un_keys u) key []
    /\ map (fun k => (fst k, SStr (snd k))) key = map (fun cv => (cd_name (fst cv), snd cv)) (up_key w')
    /\ Forall (fun cv => textual (snd cv)) (up_old w')
    /\ (un_type u = UNDO_UPDATE -> exists old, old_shown rt e m (un_changes u) old []
          /\ map (fun o => (fst o, shown_value (snd o))) old = map (fun cv => (cd_name (fst cv), snd cv)) (up_old w')).
Lemma log_said rt d tm said want_db want_tb (ok : undo -> update -> Prop) after es ws : agrees d tm -> said_as rt tm said ok d ->
  log_says rt d want_db want_tb ok after es ws ->
  exists ws', Forall2 said ws ws' /\ log_lines rt tm want_db want_tb after es (map verbatim ws').
Proof.
  intros [_ [Hids _]] HS.
  induction 1 as [|es l _ [ws' [I1 I2]]|lsn es l Hl _ [ws' [I1 I2]]|single space page b es l W1 W2 Hb Ho Hr _ [ws' [I1 I2]]|single space page u es l W1 W2 Hu Hn _ [ws' [I1 I2]]
    |single space page u w es l W1 W2 Hu H5 HM Hw Hp Hd _ [ws' [I1 I2]]|single space page u w es l W1 W2 Hu H5 HM Hw Hp HT Hq _ [ws' [I1 I2]]].
  - exists []. split; constructor.
  - exists ws'. split; [exact I1|now constructor].
  - exists ws'. split; [exact I1|now constructor].
  - exists ws'. split; [exact I1|now constructor].
  - exists ws'. split; [exact I1|]. apply (ll_undo rt tm want_db want_tb after single space page u es []); try assumption.
    apply ul_foreign. apply mget_none. now rewrite Hids.
  - exists ws'. split; [exact I1|]. apply (ll_undo rt tm want_db want_tb after single space page u es []); try assumption.
    destruct (HS u w _ Hu HM Hw Hp) as [w' [e [key [_ [G [E1 [E2 [_ [_ [K1 [K2 [_ [_ KO]]]]]]]]]]]]].
    destruct (Z.eq_dec (un_type u) UNDO_UPDATE) as [HT|HT]; [|now apply (ul_other rt tm want_db want_tb _ u e (map cd_name (map fst (up_key w))) key [])].
    destruct (KO HT) as [old [O1 _]]. apply (ul_unwanted rt tm want_db want_tb _ u e (map cd_name (map fst (up_key w))) key old [] []); try assumption. rewrite E1, E2. tauto.
  - destruct (HS u w _ Hu HM Hw Hp) as [w' [e [key [HW [G [E1 [E2 [D1 [D2 [K1 [K2 [K3 [KT KO]]]]]]]]]]]]].
    destruct (KO HT) as [old [O1 O2]]. exists (w' :: ws'). split; [constructor; [exact (HW HT)|exact I1]|]. change (map verbatim (w' :: ws')) with ([verbatim w'] ++ map verbatim ws').
    rewrite <- (line_verbatim w' old key) by assumption. rewrite D1, D2, <- E1, <- E2.
    apply ll_undo; try assumption. apply (ul_update rt tm want_db want_tb _ u e (map cd_name (map fst (up_key w))) key old [] []); try assumption. now rewrite E1, E2.
Qed.
Lemma command_said fuel rt files sys opt parts want_db want_tb spare d sys_pages fs ws (ok : undo -> update -> Prop) (said : update -> update -> Prop) :
  redo_input rt ok d sys_pages want_db want_tb fs ws ->
  (forall tm, represents (dd_tables d) (placed d) tm -> said_as rt tm said ok d) ->
  files sys = Some (map IoBytes sys_pages) -> parts_of opt parts -> map files parts = map (fun f => Some (log_events f)) fs ->
  (Z.to_nat 16384 < fuel)%nat ->
  exists ws', Forall2 said ws ws' /\ FromRedoFile fuel rt files sys opt want_db want_tb spare = (map verbatim ws', Ok tt).
Proof.
  intros [Hs [Hc [Hf [HF [es [tail [Hp [Hl [Ht HS]]]]]]]]] Hsaid F1 Hparts F2 Hfuel.
  rewrite (C73_redo fuel rt files sys opt parts want_db want_tb spare Hparts), F1.
  destruct (dict_read fuel rt sys_pages d Hs Hc Hfuel) as [tm [-> HR]]. unfold wbind at 1. cbn [app].
  destruct (log_said rt d tm said want_db want_tb ok _ _ _ (placed_agrees d tm Hc HR) (Hsaid tm HR) HS) as [ws' [HW HL]]. exists ws'. split; [exact HW|].
  assert (E : ParseRedoLogs rt tm want_db want_tb (map files parts) spare = (map verbatim ws', Ok None)).
  { etransitivity; [exact (f_equal (fun x => ParseRedoLogs rt tm want_db want_tb x spare) F2)|].
    apply (C68_log_partial rt tm want_db want_tb spare fs es tail _ Hf Hp Hl Ht); [|exact HL]. exact (filters_agree d tm want_db want_tb Hc HR HF). }
  match goal with |- context [ParseRedoLogs ?a ?b ?c ?e ?x ?s] => replace (ParseRedoLogs a b c e x s) with (map verbatim ws', @Ok (option bytes) None) by (symmetry; exact E) end.
  unfold wbind, wret. cbn [app]. now rewrite app_nil_r.
Qed.
