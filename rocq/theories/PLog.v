(** Whole logs: the loop over the records, the blocks and the files. *)
From Coq Require Import ZArith List Bool String Lia ZifyBool.
From Verif Require Import GoBase Utils Ibdata Redo SpecInno SpecText SpecSql SpecRecord SpecRow SpecRedo SpecUndo PBase PWire PRedo PStep PUndo.
Import ListNotations.
Local Open Scope Z_scope.
Local Open Scope list_scope.
Close Scope string_scope.
Ltac Zify.zify_post_hook ::= Z.div_mod_to_equations.

Section Log.
Variable rt : runtime.
Variable tm : gomap Table.
Variable db tb : bytes.
Variable data : bytes.
Variable spare : nat.
Hypothesis Hb : all_bytes data.
Hypothesis Hs : len data < 2 ^ 32 - 1.

Lemma guard s : 0 <= s <= len data -> (i64 (i64 (len data) - i64 s) <? 5) || (u64 (len data - s) <? 5) = (len data - s <? 5).
Proof.
  intro H. rewrite (i64_id (len data)), (i64_id s) by lia. rewrite i64_id by lia. rewrite u64_id by lia. now destruct (_ <? 5).
Qed.
Lemma step_undo_at single sp pg u lines s d : At data s (enc_entry (ERecord single sp pg (BUndo (enc_undo u))) ++ d) -> word sp -> word pg -> undo_ok u ->
  undo_lines rt tm db tb (len d) u lines -> (un_type u = UNDO_UPDATE -> forall t, mget tm (un_table u) = Some t -> db = [] \/ tb = [] \/ db = t_db t \/ tb <> t_name t) ->
  redo_step rt tm db tb data spare s = (lines, s + len (enc_entry (ERecord single sp pg (BUndo (enc_undo u)))), Ok None).
Proof.
  intros H H1 H2 Hu HU HF. assert (Hbo : body_ok (BUndo (enc_undo u))) by (cbn; destruct Hu; tauto).
  destruct (front rt tm db tb data spare Hb ltac:(lia) _ _ _ _ _ _ H H1 H2 Hbo) as [s' [-> [H' ->]]].
  cbn [enc_body] in H'. rewrite <- app_assoc in H'.
  destruct (run_undo rt tm db tb data spare Hb Hs u lines _ _ H' Hu HU HF) as [e E].
  unfold redo_switch. cbn [type_of]. cbv zeta.
  change (existsb (Z.eqb 20) [MLOG_1BYTE; MLOG_2BYTES; MLOG_4BYTES; MLOG_8BYTES]) with false. change (existsb (Z.eqb 20) [MLOG_REC_SEC_DELETE_MARK]) with false.
  change (existsb (Z.eqb 20) [MLOG_UNDO_INSERT]) with true. cbv iota.
  unfold dropped. erewrite pbo by exact E. cbn [pret fst snd]. rewrite app_nil_r. apply trip.
  cbn [enc_entry enc_body]. rewrite len_cons, !len_app, len_be. unfold zlen, len. lia.
Qed.
Hypothesis HF : forall k t, mget tm k = Some t -> db = [] \/ tb = [] \/ db = t_db t \/ tb <> t_name t.
Lemma step_undo single sp pg u lines s d : At data s (enc_entry (ERecord single sp pg (BUndo (enc_undo u))) ++ d) -> word sp -> word pg -> undo_ok u ->
  undo_lines rt tm db tb (len d) u lines ->
  redo_step rt tm db tb data spare s = (lines, s + len (enc_entry (ERecord single sp pg (BUndo (enc_undo u)))), Ok None).
Proof. intros. eapply step_undo_at; try eassumption. intros _ t Ht. eapply HF; exact Ht. Qed.
Lemma undo_entry_len single sp pg u : 5 <= len (enc_entry (ERecord single sp pg (BUndo (enc_undo u)))).
Proof.
  cbn [enc_entry enc_body]. rewrite len_cons, !len_app, len_be. unfold enc_undo, enc_undo_head. rewrite !len_app, len_be.
  pose proof (len_nonneg (enc_compressed sp)). pose proof (len_nonneg (enc_compressed pg)).
  pose proof (len_nonneg (enc_much_compressed (un_no u))). pose proof (len_nonneg (enc_much_compressed (un_table u))).
  assert (Hm : forall n, 1 <= len (enc_compressed n)) by (intro n; unfold enc_compressed; repeat destruct (_ <? _); cbn; lia).
  pose proof (Hm sp). pose proof (Hm pg). 
  match goal with |- context[len (if ?c then [] else ?x)] => pose proof (len_nonneg (if c then [] else x)) end.
  match goal with |- context[len (flat_map ?f ?l)] => pose proof (len_nonneg (flat_map f l)) end.
  pose proof (len_nonneg (un_more u)).
  match goal with |- context[len (if ?c then ?x else [])] => pose proof (len_nonneg (if c then x else [])) end. lia.
Qed.
Lemma short_log after es lines : log_lines rt tm db tb after es lines -> len (flat_map enc_entry es) < 5 -> lines = [].
Proof.
  induction 1; intro H'; cbn [flat_map] in H'; rewrite ?len_app in H'; repeat match goal with H : context[len (enc_entry ?e)] |- _ => tryif (match goal with K : 0 <= len (enc_entry e) |- _ => idtac end) then fail else pose proof (len_nonneg (enc_entry e)) end;
    try reflexivity; try (apply IHlog_lines; lia).
  match goal with H : context[ERecord ?a ?b ?c (BUndo (enc_undo ?u))] |- _ => pose proof (undo_entry_len a b c u) end.
  pose proof (len_nonneg (flat_map enc_entry es)). lia.
Qed.
Lemma loop_step fuel s lines s' : 0 <= s -> 5 <= len data - s -> redo_step rt tm db tb data spare s = (lines, s', Ok None) ->
  redo_loop (S fuel) rt tm db tb data spare s = (lines ++ fst (fst (redo_loop fuel rt tm db tb data spare s')), snd (fst (redo_loop fuel rt tm db tb data spare s')), snd (redo_loop fuel rt tm db tb data spare s')).
Proof.
  intros H0 H E. cbn [redo_loop]. erewrite pb by reflexivity. cbv beta. rewrite guard by lia. replace (len data - s <? 5) with false by lia.
  erewrite pbo by exact E. reflexivity.
Qed.
Lemma entry_pos e : 1 <= len (enc_entry e).
Proof. destruct e; cbn [enc_entry]; rewrite len_cons; match goal with |- _ <= 1 + len ?x => pose proof (len_nonneg x) end; lia. Qed.
Lemma run_log tail : forall es lines, log_lines rt tm db tb (len tail) es lines -> forall s fuel, At data s (flat_map enc_entry es ++ tail) ->
  (Z.to_nat (len data - s) < fuel)%nat ->
  exists rest s' r, redo_loop fuel rt tm db tb data spare s = (lines ++ rest, s', r) /\ (len tail < 5 -> rest = [] /\ r = Ok None).
Proof.
  assert (Hcase : forall es lines s fuel, log_lines rt tm db tb (len tail) es lines -> At data s (flat_map enc_entry es ++ tail) -> (Z.to_nat (len data - s) < fuel)%nat ->
    len data - s < 5 -> exists rest s' r, redo_loop fuel rt tm db tb data spare s = (lines ++ rest, s', r) /\ (len tail < 5 -> rest = [] /\ r = Ok None)).
  { intros es lines s fuel HL HA Hf H5. pose proof (At_range _ _ _ HA) as [R1 R2]. rewrite len_app in R2. pose proof (len_nonneg tail).
    rewrite (short_log _ _ _ HL) by lia. destruct fuel as [|f]; [lia|]. cbn [redo_loop]. erewrite pb by reflexivity. cbv beta. rewrite guard by (pose proof (len_nonneg (flat_map enc_entry es)); lia).
    replace (len data - s <? 5) with true by lia. exists [], s, (Ok None). split; [reflexivity|]. intros _. split; reflexivity. }
  assert (Hstep : forall e l es lines s fuel, At data s (flat_map enc_entry (e :: es) ++ tail) -> (Z.to_nat (len data - s) < fuel)%nat -> 5 <= len data - s ->
    redo_step rt tm db tb data spare s = (l, s + len (enc_entry e), Ok None) ->
    (forall s fuel, At data s (flat_map enc_entry es ++ tail) -> (Z.to_nat (len data - s) < fuel)%nat ->
      exists rest s' r, redo_loop fuel rt tm db tb data spare s = (lines ++ rest, s', r) /\ (len tail < 5 -> rest = [] /\ r = Ok None)) ->
    exists rest s' r, redo_loop fuel rt tm db tb data spare s = ((l ++ lines) ++ rest, s', r) /\ (len tail < 5 -> rest = [] /\ r = Ok None)).
  { intros e l es lines s fuel HA Hf H5 E IH. destruct fuel as [|f]; [lia|]. pose proof (At_range _ _ _ HA) as [R1 _].
    rewrite (loop_step _ _ _ _ R1 H5 E). cbn [flat_map] in HA. rewrite <- app_assoc in HA. apply At_app in HA. pose proof (entry_pos e).
    destruct (IH (s + len (enc_entry e)) f HA ltac:(lia)) as [rest [s' [r [-> K]]]]. cbn [fst snd]. exists rest, s', r. rewrite app_assoc. split; [reflexivity|exact K]. }
  assert (Hord : forall e es lines s fuel, entry_ok e -> entry_ordinary e -> entry_room e <= zlen (flat_map enc_entry es) + len tail ->
    log_lines rt tm db tb (len tail) (e :: es) lines -> At data s (flat_map enc_entry (e :: es) ++ tail) -> (Z.to_nat (len data - s) < fuel)%nat ->
    (forall s fuel, At data s (flat_map enc_entry es ++ tail) -> (Z.to_nat (len data - s) < fuel)%nat ->
      exists rest s' r, redo_loop fuel rt tm db tb data spare s = (lines ++ rest, s', r) /\ (len tail < 5 -> rest = [] /\ r = Ok None)) ->
    exists rest s' r, redo_loop fuel rt tm db tb data spare s = (lines ++ rest, s', r) /\ (len tail < 5 -> rest = [] /\ r = Ok None)).
  { intros e es lines s fuel Ho Hord Hr HL HA Hf IH. destruct (Z_lt_ge_dec (len data - s) 5) as [Hlt|Hge]; [now apply (Hcase _ _ _ _ HL HA Hf)|].
    apply (Hstep e [] es lines s fuel HA Hf ltac:(lia)); [|exact IH]. cbn [flat_map] in HA. rewrite <- app_assoc in HA.
    eapply entry_step; [exact Hb|lia|exact HA|exact Ho|exact Hord|]. rewrite len_app. exact Hr. }
  induction 1 as [|es l HL IH|lsn es l Hl HL IH|single sp pg b es l H1 H2 H3 H4 H5 HL IH|single sp pg u es l l' H1 H2 H3 H4 HL IH]; intros s fuel HA Hf.
  - destruct (Z_lt_ge_dec (len tail) 5) as [Hlt|Hge].
    + eapply Hcase; [constructor|exact HA|exact Hf|]. cbn [flat_map app] in HA. pose proof (At_range _ _ _ HA). lia.
    + destruct (redo_loop fuel rt tm db tb data spare s) as [[o s'] r]. exists o, s', r. split; [reflexivity|lia].
  - eapply (Hord EEnd es l); try exact IH; try assumption; [exact I|exact I| |now constructor]. cbn [entry_room]. pose proof (len_nonneg (flat_map enc_entry es)). pose proof (len_nonneg tail). unfold zlen, len in *. lia.
  - eapply (Hord (ECheckpoint lsn) es l); try exact IH; try assumption; [exact I| |now constructor]. cbn [entry_room]. pose proof (len_nonneg (flat_map enc_entry es)). pose proof (len_nonneg tail). unfold zlen, len in *. lia.
  - eapply (Hord (ERecord single sp pg b) es l); try exact IH; try assumption; [cbn; tauto|]. now constructor.
  - destruct (Z_lt_ge_dec (len data - s) 5) as [Hlt|Hge]; [apply (Hcase (ERecord single sp pg (BUndo (enc_undo u)) :: es)); try assumption; now constructor|].
    apply (Hstep (ERecord single sp pg (BUndo (enc_undo u))) l es l' s fuel HA Hf ltac:(lia)); [|exact IH]. cbn [flat_map] in HA. rewrite <- app_assoc in HA.
    eapply step_undo; try eassumption; rewrite len_app; change (@zlen) with (@len) in *; exact H4.
Qed.
Lemma log_parse tail es lines : data = flat_map enc_entry es ++ tail -> log_lines rt tm db tb (len tail) es lines -> len tail < 5 ->
  parseRedoBlockData rt tm db tb data spare = (lines, Ok None).
Proof.
  intros E HL Ht. unfold parseRedoBlockData. destruct (run_log tail es lines HL 0 (S (List.length data))) as [rest [s' [r [-> K]]]].
  - exists []. now split.
  - unfold len. lia.
  - destruct (K Ht) as [-> ->]. now rewrite app_nil_r.
Qed.
Lemma log_prefix tail es lines : data = flat_map enc_entry es ++ tail -> log_lines rt tm db tb (len tail) es lines ->
  exists rest, fst (parseRedoBlockData rt tm db tb data spare) = lines ++ rest.
Proof.
  intros E HL. unfold parseRedoBlockData. destruct (run_log tail es lines HL 0 (S (List.length data))) as [rest [s' [r [-> K]]]].
  - exists []. now split.
  - unfold len. lia.
  - now exists rest.
Qed.
(** With at least five bytes after the entries the loop goes on right behind them. *)
Lemma run_to tail : 5 <= len tail -> forall es lines, log_lines rt tm db tb (len tail) es lines -> forall s fuel, At data s (flat_map enc_entry es ++ tail) ->
  (Z.to_nat (len data - s) < fuel)%nat ->
  exists fuel' o s' r, At data (s + len (flat_map enc_entry es)) tail /\ (Z.to_nat (len data - (s + len (flat_map enc_entry es))) < fuel')%nat /\
    redo_loop fuel' rt tm db tb data spare (s + len (flat_map enc_entry es)) = (o, s', r) /\ redo_loop fuel rt tm db tb data spare s = (lines ++ o, s', r).
Proof.
  intro Ht.
  assert (Hstep : forall e l es lines s fuel, At data s (flat_map enc_entry (e :: es) ++ tail) -> (Z.to_nat (len data - s) < fuel)%nat ->
    redo_step rt tm db tb data spare s = (l, s + len (enc_entry e), Ok None) ->
    (forall s fuel, At data s (flat_map enc_entry es ++ tail) -> (Z.to_nat (len data - s) < fuel)%nat ->
      exists fuel' o s' r, At data (s + len (flat_map enc_entry es)) tail /\ (Z.to_nat (len data - (s + len (flat_map enc_entry es))) < fuel')%nat /\
      redo_loop fuel' rt tm db tb data spare (s + len (flat_map enc_entry es)) = (o, s', r) /\ redo_loop fuel rt tm db tb data spare s = (lines ++ o, s', r)) ->
    exists fuel' o s' r, At data (s + len (flat_map enc_entry (e :: es))) tail /\ (Z.to_nat (len data - (s + len (flat_map enc_entry (e :: es)))) < fuel')%nat /\
      redo_loop fuel' rt tm db tb data spare (s + len (flat_map enc_entry (e :: es))) = (o, s', r) /\ redo_loop fuel rt tm db tb data spare s = ((l ++ lines) ++ o, s', r)).
  { intros e l es lines s fuel HA Hf E IH. destruct fuel as [|f]; [lia|]. pose proof (At_range _ _ _ HA) as [R1 R2]. rewrite len_app in R2. pose proof (len_nonneg (flat_map enc_entry (e :: es))).
    rewrite (loop_step _ _ _ _ R1 ltac:(lia) E). cbn [flat_map] in HA. rewrite <- app_assoc in HA. apply At_app in HA. pose proof (entry_pos e).
    destruct (IH (s + len (enc_entry e)) f HA ltac:(lia)) as [fuel' [o [s' [r [K1 [K2 [K3 K4]]]]]]]. rewrite K4. cbn [fst snd]. exists fuel', o, s', r.
    cbn [flat_map]. rewrite len_app, Z.add_assoc. rewrite app_assoc. split; [exact K1|]. split; [exact K2|]. split; [exact K3|reflexivity]. }
  induction 1 as [|es l HL IH|lsn es l Hl HL IH|single sp pg b es l H1 H2 H3 H4 H5 HL IH|single sp pg u es l l' H1 H2 H3 H4 HL IH]; intros s fuel HA Hf.
  - destruct (redo_loop fuel rt tm db tb data spare s) as [[o s'] r] eqn:E. exists fuel, o, s', r. cbn [flat_map app] in *. rewrite len_nil, Z.add_0_r. auto.
  - apply (Hstep EEnd [] es l s fuel HA Hf); [|exact IH]. cbn [flat_map] in HA. rewrite <- app_assoc in HA. eapply entry_step; [exact Hb|lia|exact HA|exact I|exact I|apply len_nonneg].
  - apply (Hstep (ECheckpoint lsn) [] es l s fuel HA Hf); [|exact IH]. cbn [flat_map] in HA. rewrite <- app_assoc in HA. eapply entry_step; [exact Hb|lia|exact HA|exact Hl|exact I|apply len_nonneg].
  - apply (Hstep (ERecord single sp pg b) [] es l s fuel HA Hf); [|exact IH]. cbn [flat_map] in HA. rewrite <- app_assoc in HA. eapply entry_step; [exact Hb|lia|exact HA|cbn; tauto|exact H4|]. rewrite len_app. exact H5.
  - apply (Hstep (ERecord single sp pg (BUndo (enc_undo u))) l es l' s fuel HA Hf); [|exact IH]. cbn [flat_map] in HA. rewrite <- app_assoc in HA.
    eapply step_undo; try eassumption; rewrite len_app; change (@zlen) with (@len) in *; exact H4.
Qed.

(** Records that are not stepped over exactly *)
Lemma step_rename single sp pg t x y s d : At data s (enc_entry (ERecord single sp pg (BFileRename t x y)) ++ d) -> entry_ok (ERecord single sp pg (BFileRename t x y)) ->
  redo_step rt tm db tb data spare s = ([], s + len (enc_entry (ERecord single sp pg (BFileRename t x y))) - (2 + len y), Ok None).
Proof.
  clear HF.
  intros H [H1 [H2 H3]]. destruct (front rt tm db tb data spare Hb ltac:(lia) _ _ _ _ _ _ H H1 H2 H3) as [s' [-> [H' ->]]].
  destruct H3 as [Ht [Hx Hy]]. cbn [type_of enc_body] in *. rewrite <- !app_assoc in H'.
  assert (E : redo_switch rt tm db tb data spare t = dropped (mlogFileOp data t)) by (cbn in Ht; destruct Ht as [<-|[<-|[]]]; reflexivity).
  rewrite E. eapply r_dropped2; [eapply s_file; [lia|cbn in Ht; lia|exact H'|exact Hx]|].
  cbn [enc_entry enc_body]. rewrite len_cons, !len_app, !len_be. lia.
Qed.
Lemma step_compsec single sp pg dd v o s d : At data s (enc_entry (ERecord single sp pg (BCompSecDelete dd v o)) ++ d) -> entry_ok (ERecord single sp pg (BCompSecDelete dd v o)) ->
  redo_step rt tm db tb data spare s = ([], s + len (enc_entry (ERecord single sp pg (BCompSecDelete dd v o))) - 3, Ok None).
Proof.
  clear HF.
  intros H [H1 [H2 H3]]. destruct (front rt tm db tb data spare Hb ltac:(lia) _ _ _ _ _ _ H H1 H2 H3) as [s' [-> [H' ->]]].
  destruct H3 as [Hd [Hx Hy]]. cbn [type_of enc_body] in *. rewrite <- !app_assoc in H'.
  change (redo_switch rt tm db tb data spare 40) with (dropped (mlogCompRecSecDeleteMark data)). unfold mlogCompRecSecDeleteMark.
  change (enc_desc dd) with (enc_opt (Some dd)) in H'. eapply r_dropped2; [refine (r_index data _ (Some dd) _ _ H' Hd); lia|].
  cbn [enc_entry enc_body enc_opt]. rewrite len_cons, !len_app, !len_be. lia.
Qed.
Lemma step_dummy a b s d : At data s (enc_entry EDummy ++ enc_compressed a ++ enc_compressed b ++ d) -> word a -> word b ->
  redo_step rt tm db tb data spare s = ([], s + 1 + len (enc_compressed a) + len (enc_compressed b), Ok None).
Proof.
  clear HF.
  assert (Hs62 : len data < 2 ^ 62) by lia. intros H H1 H2. cbn [enc_entry] in H. change [32] with (be 1 32) in H. unfold word in *. unfold redo_step.
  erewrite pb by (eapply r_read1; [exact H|lia]). cbv beta.
  erewrite pb by (eapply r_advance; [exact Hs62|exact H|lia]). cbv beta. apply At_app in H. rewrite len_be in H. change (Z.of_nat 1) with 1 in H.
  erewrite pb by reflexivity. cbv beta zeta. change (32 =? MLOG_MULTI_REC_END) with false. change (Z.ldiff 32 MLOG_SINGLE_REC_FLAG) with 32. change (32 =? MLOG_CHECKPOINT) with false. cbn [negb]. cbv iota.
  pose proof (comp_len a). pose proof (comp_len b).
  erewrite pb by (eapply r_comp; [exact Hb|exact Hs62|exact H|lia]). cbv beta iota.
  erewrite pb by (eapply r_advance; [exact Hs62|exact H|lia]). cbv beta. apply At_app in H.
  erewrite pb by (eapply r_comp; [exact Hb|exact Hs62|exact H|lia]). cbv beta iota.
  erewrite pb by (eapply r_advance; [exact Hs62|exact H|lia]). reflexivity.
Qed.
Lemma step_null single sp pg od fl sv off info fs1 p fs2 s d :
  At data s (enc_entry (ERecord single sp pg (BUpdate od fl sv off info (fs1 ++ (p, None) :: fs2))) ++ d) ->
  entry_ok (ERecord single sp pg (BUpdate od fl sv off info (fs1 ++ (p, None) :: fs2))) -> Forall value_ok fs1 ->
  exists s', redo_step rt tm db tb data spare s = ([], s', Ok None) /\ len data < s' < 2 ^ 40.
Proof.
  clear HF.
  intros H [H1 [H2 H3]] Hv. destruct (front rt tm db tb data spare Hb ltac:(lia) _ _ _ _ _ _ H H1 H2 H3) as [s' [-> [H' ->]]].
  cbn [type_of].
  assert (E : redo_switch rt tm db tb data spare (comp od 13 41) = dropped (mlogRecUpdateInPlace data (comp od 13 41))) by (destruct od; reflexivity).
  rewrite E. destruct (s_update_null data Hb ltac:(lia) od fl sv off info fs1 p fs2 _ d Hs H' H3 Hv) as [s' [E' R]]. exists s'. split; [|exact R].
  eapply r_dropped; [exact E'].
Qed.
Lemma split_null (fs : list (Z * option (list Z))) : ~ Forall value_ok fs -> exists fs1 p fs2, fs = fs1 ++ (p, None) :: fs2 /\ Forall value_ok fs1.
Proof.
  induction fs as [|[p [v|]] fs IH]; intro H.
  - contradiction H. constructor.
  - destruct IH as [fs1 [q [fs2 [-> K]]]].
    + intro X. apply H. constructor; [discriminate|exact X].
    + exists ((p, Some v) :: fs1), q, fs2. split; [reflexivity|]. constructor; [discriminate|exact K].
  - exists [], p, fs. split; [reflexivity|constructor].
Qed.
Lemma past_loop fuel s : len data < s -> s < 2 ^ 40 -> (0 < fuel)%nat -> redo_loop fuel rt tm db tb data spare s = ([], s, Ok None).
Proof.
  intros H1 H2 Hf. destruct fuel as [|f]; [lia|]. cbn [redo_loop]. erewrite pb by reflexivity. cbv beta. pose proof (len_nonneg data).
  rewrite (i64_id (len data)), (i64_id s) by lia. 
  assert (E2 : i64 (len data - s) = len data - s).
  { unfold i64. cbv zeta. replace ((len data - s) mod 2 ^ 64) with (len data - s + 2 ^ 64) by (apply (Z.mod_unique _ _ (-1)); lia).
    destruct (Z.ltb_spec (len data - s + 2 ^ 64) (2 ^ 63)); lia. }
  rewrite E2. replace (len data - s <? 5) with true by lia. reflexivity.
Qed.
Lemma log_null es lines single sp pg od fl sv off info fs d :
  let e := ERecord single sp pg (BUpdate od fl sv off info fs) in
  data = flat_map enc_entry es ++ enc_entry e ++ d -> entry_ok e -> ~ Forall value_ok fs ->
  log_lines rt tm db tb (len (enc_entry e ++ d)) es lines ->
  parseRedoBlockData rt tm db tb data spare = (lines, Ok None).
Proof.
  intros e E Hok Hn HL. destruct (split_null fs Hn) as [fs1 [p [fs2 [-> Hv]]]].
  assert (H5 : 5 <= len (enc_entry e ++ d)).
  { unfold e. cbn [enc_entry enc_body]. rewrite len_app, len_cons, !len_app, !len_be. repeat match goal with |- context[len (enc_compressed ?x)] => tryif (match goal with K : _ <= len (enc_compressed x) <= _ |- _ => idtac end) then fail else pose proof (comp_len x) end.
    pose proof (len_nonneg (enc_opt od)). pose proof (len_nonneg (enc_sys sv)). pose proof (len_nonneg d). match goal with |- context[len (flat_map ?f ?l)] => pose proof (len_nonneg (flat_map f l)) end. lia. }
  unfold parseRedoBlockData. destruct (run_to _ H5 es lines HL 0 (S (List.length data))) as [fuel' [o [s' [r [K1 [K2 [K3 ->]]]]]]].
  - exists []. now split.
  - unfold len. lia.
  - pose proof (At_range _ _ _ K1) as [R1 R2]. destruct fuel' as [|f]; [lia|].
    destruct (step_null _ _ _ _ _ _ _ _ _ _ _ _ _ K1 Hok Hv) as [s2 [E2 R]].
    assert (Hf : (0 < f)%nat) by lia.
    erewrite (loop_step f) in K3; [|exact R1|lia|exact E2]. rewrite past_loop in K3 by lia. cbn [fst snd app] in K3. injection K3 as <- _ <-. now rewrite app_nil_r.
Qed.

(** An unknown type *)
Lemma step_unknown b s d : At data s (b :: d) -> 10 <= len d -> b <> 31 -> Z.ldiff b 128 <> 56 -> validateLogHeader (Z.ldiff b 128) = false ->
  redo_step rt tm db tb data spare s = ([], s + 1, Ok None).
Proof.
  clear HF.
  assert (Hs62 : len data < 2 ^ 62) by lia. intros H Hd H1 H2 H3. pose proof (At_bytes _ Hb _ _ H) as B. inversion B as [|? ? Bb Bd]; subst. unfold is_byte in Bb.
  assert (E0 : [b] = be 1 b) by (rewrite be1_cons; f_equal; lia). assert (E1 : b :: d = be 1 b ++ d) by now rewrite <- E0. rewrite E1 in H. unfold redo_step.
  erewrite pb by (eapply r_read1; [exact H|lia]). cbv beta.
  erewrite pb by (eapply r_advance; [exact Hs62|exact H|lia]). cbv beta. apply At_app in H. rewrite len_be in H. change (Z.of_nat 1) with 1 in H.
  erewrite pb by reflexivity. cbv beta zeta. change MLOG_MULTI_REC_END with 31. replace (b =? 31) with false by lia. change MLOG_SINGLE_REC_FLAG with 128. change MLOG_CHECKPOINT with 56.
  replace (Z.ldiff b 128 =? 56) with false by lia. cbn [negb]. cbv iota. pose proof (At_range _ _ _ H) as [R1 R2].
  assert (Hc : forall s', s + 1 <= s' -> s' + 5 <= len data -> exists v n, compressed_at data s' = ([], s', Ok (v, n, None)) /\ 1 <= n <= 5).
  { intros s' A1 A2. destruct (compressed_cases data s' Hb ltac:(lia) ltac:(lia)) as [C _]. destruct (C ltac:(lia)) as [x [_ [[T _]|[[_ [T _]]|[v [n [E [_ [T _]]]]]]]]].
    - unfold truncated_form in T. lia.
    - lia.
    - exists v, n. split; [|exact T]. unfold compressed_at. erewrite pb by reflexivity. unfold plift. now rewrite E. }
  destruct (Hc (s + 1) ltac:(lia) ltac:(lia)) as [v [n [E En]]]. erewrite pb by exact E. cbv beta iota.
  unfold pbind at 1, advance at 1. rewrite u64_id by lia.
  destruct (Hc (s + 1 + n) ltac:(lia) ltac:(lia)) as [v2 [n2 [E2 En2]]]. erewrite pb by exact E2. cbv beta iota.
  erewrite pb; [|unfold advance; rewrite u64_id by lia; reflexivity]. rewrite H3. reflexivity.
Qed.
(** Any undo record: where the cursor ends up, and what is printed *)
Definition diagnostic (l : bytes) : Prop := l = err_short_compressed \/ l = bs "test MYSQL_TYPE_NEWDECIMAL".
Lemma kind_low b : 0 <= b < 256 -> undo_kind b = b mod 16.
Proof.
  clear HF.
  intro H. unfold undo_kind. change TRX_UNDO_UPD_EXTERN with (2 ^ 7). rewrite ldiff_pow2 by lia. rewrite testbit_high by lia. change (TRX_UNDO_CMPL_INFO_MULT - 1) with (Z.ones 4).
  rewrite Z.land_ones by lia. change (2 ^ 4) with 16. destruct (Z.leb_spec (2 ^ 7) b); lia.
Qed.
Lemma any_undo body s d : At data s (be 2 (len body) ++ body ++ d) -> len body < 2 ^ 16 ->
  exists o s' e, mlogUndoInsert rt tm db tb data spare s = (o, s', Ok e)
  /\ (s' = s + 2 + len body \/ len data < s' + 5 \/ e = Some err_field)
  /\ (body <> [] -> hd 0 body mod 16 <> 12 -> Forall diagnostic o).
Proof.
  clear HF.
  intros H Hl. assert (Hs62 : len data < 2 ^ 62) by lia. pose proof (len_nonneg body) as N. pose proof (At_range _ _ _ H) as [R1 R2]. rewrite !len_app, len_be in R2. pose proof (len_nonneg d) as N2.
  assert (E2 : MatchReadFrom2 (skipn (Z.to_nat s) data) = Ok (len body)).
  { pose proof (At_slice _ _ _ H) as E. rewrite slice_from_ok in E by lia. apply ok_inj in E. rewrite E.
    pose proof (r_read2 data s _ _ H ltac:(lia)) as X. unfold readat, pbind, getpos, plift in X. rewrite (At_slice _ _ _ H) in X. cbn [bind] in X. destruct (MatchReadFrom2 _); congruence. }
  assert (HP : forall o s' r, mlogUndoInsert rt tm db tb data spare s = (o, s', r) -> r <> Panic).
  { intros o s' r. unfold mlogUndoInsert. erewrite pb by (eapply r_read2; [exact H|lia]). cbv beta.
    erewrite pb by (eapply r_advance; [exact Hs62|exact H|lia]). cbv beta. erewrite pb by reflexivity. cbv beta. unfold precover.
    destruct (mlogUndoInsert_body _ _ _ _ _ _ _ _ _) as [[o1 s1] [a| |]]; cbn; intro X; injection X as <- <- <-; discriminate. }
  assert (HD : forall D : bytes -> Prop, D err_short_compressed -> D (bs "test MYSQL_TYPE_NEWDECIMAL") ->
    (forall b, MatchReadFrom1 (skipn (Z.to_nat (s + 2)) data) = Ok b -> undo_kind b = 12 -> forall table keys cols, redo_filter db tb table = true -> D (update_statement rt table keys cols)) ->
    ok D (len data) 0 s (mlogUndoInsert rt tm db tb data spare) (fun e s' => (exists n, MatchReadFrom2 (skipn (Z.to_nat s) data) = Ok n /\ s' = s + 2 + n) \/ len data < s' + 5 \/ e = Some err_field)).
  { intros D D1 D2 D3. apply ok_undo_end; try assumption; try lia; reflexivity. }
  pose proof (HD (fun _ => True) I I ltac:(intros; exact I)) as K. unfold ok in K.
  destruct (mlogUndoInsert rt tm db tb data spare s) as [[o s'] r] eqn:E. destruct K as [_ [_ K]]. specialize (HP _ _ _ eq_refl).
  destruct r as [e| |]; [|now contradiction HP|contradiction]. exists o, s', e. split; [reflexivity|]. split.
  - destruct K as [[n [En ->]]|K]; [|now right]. left. rewrite E2 in En. apply ok_inj in En. lia.
  - intros Hne Hk. assert (HU : forall b, MatchReadFrom1 (skipn (Z.to_nat (s + 2)) data) = Ok b -> undo_kind b = 12 -> forall table keys cols, redo_filter db tb table = true -> diagnostic (update_statement rt table keys cols)).
    { intros b Eb Kb. exfalso. apply Hk. destruct body as [|b0 body]; [congruence|]. cbn [hd]. pose proof (At_app _ _ _ _ H) as H2. rewrite len_be in H2. change (Z.of_nat 2) with 2 in H2.
      pose proof (At_slice _ _ _ H2) as E3. rewrite slice_from_ok in E3 by lia. apply ok_inj in E3. rewrite E3 in Eb.
      pose proof (At_bytes _ Hb _ _ H2) as Bb. inversion Bb as [|? ? B0 _]; subst. cbn [app] in Eb. unfold is_byte in B0.
      rewrite mrf1_spec in Eb by exact Bb. rewrite len_cons in Eb. pose proof (len_nonneg (body ++ d)) as N3. replace (1 <=? 1 + len (body ++ d)) with true in Eb by lia.
      apply ok_inj in Eb. cbn in Eb. rewrite <- Eb in Kb. rewrite kind_low in Kb by lia. exact Kb. }
    pose proof (HD diagnostic ltac:(now left) ltac:(now right) HU) as Q. unfold ok in Q. rewrite E in Q. tauto.
Qed.

(** The loop's fuel does not matter once it suffices *)
Lemma more_fuel : forall fuel s o s' r, redo_loop fuel rt tm db tb data spare s = (o, s', r) -> r <> NoFuel -> forall k, redo_loop (fuel + k) rt tm db tb data spare s = (o, s', r).
Proof.
  induction fuel as [|f IH]; intros s o s' r E Hr k; [unfold redo_loop, plift in E; injection E as _ _ E; congruence|]. cbn [redo_loop Nat.add] in *. unfold pbind, getpos in *.
  destruct ((i64 (i64 (len data) - i64 s) <? 5) || (u64 (len data - s) <? 5)); [exact E|].
  destruct (redo_step rt tm db tb data spare s) as [[o1 s1] [[e|]| |]]; try exact E.
  destruct (redo_loop f rt tm db tb data spare s1) as [[o2 s2] r2] eqn:E2.
  assert (Hr2 : r2 <> NoFuel) by (cbn in E; congruence). rewrite (IH _ _ _ _ E2 Hr2 k). exact E.
Qed.
End Log.

(** Blocks and files *)
Lemma block_read b : len b = 512 -> fst (ReadNextBytes [IoBytes b] OS_FILE_LOG_BLOCK_SIZE) = Some b.
Proof.
  intro H. cbn [ReadNextBytes fst]. f_equal. unfold len in H. assert (E : List.length b = OS_FILE_LOG_BLOCK_SIZE) by (apply Nat2Z.inj; exact H).
  rewrite <- E, firstn_app, Nat.sub_diag, firstn_all. cbn [firstn]. now rewrite app_nil_r.
Qed.
Lemma next_read b f : len b = 512 -> ReadNextBytes (IoBytes b :: f) OS_FILE_LOG_BLOCK_SIZE = (Some b, f).
Proof. intro H. pose proof (block_read b H) as E. cbn [ReadNextBytes fst] in *. now rewrite E. Qed.
Lemma block_header b : len b = 512 -> all_bytes b -> readRedoBlockHeader b = Ok (block_len b).
Proof.
  intros H1 H2. unfold readRedoBlockHeader, block_len. rewrite mrf4_spec by assumption. replace (4 <=? len b) with true by lia. cbn [bind].
  rewrite (slice_from_ok b 4) by lia. cbn [bind]. rewrite mrf2_spec by now apply all_bytes_skipn. rewrite len_skipn by lia. replace (2 <=? len b - Z.of_nat (Z.to_nat 4)) with true by lia. cbn [bind].
  rewrite (slice_from_ok b 6) by lia. cbn [bind]. rewrite mrf2_spec by now apply all_bytes_skipn. rewrite len_skipn by lia. replace (2 <=? len b - Z.of_nat (Z.to_nat 6)) with true by lia. cbn [bind].
  rewrite (slice_from_ok b 8) by lia. cbn [bind]. rewrite mrf4_spec by now apply all_bytes_skipn. rewrite len_skipn by lia. replace (4 <=? len b - Z.of_nat (Z.to_nat 8)) with true by lia. reflexivity.
Qed.
Lemma block_range b : all_bytes b -> len b = 512 -> 0 <= block_len b < 65536.
Proof.
  intros H1 H2. unfold block_len. pose proof (be_val_bound (firstn 2 (skipn 4 b)) (all_bytes_firstn _ _ (all_bytes_skipn _ _ H1))) as H.
  rewrite len_firstn in H; [exact H|]. rewrite len_skipn by lia. lia.
Qed.
Definition used (n : Z) : Z := if n >=? 512 then n - 4 else n.
Lemma block_case b f : len b = 512 -> all_bytes b -> redoBlocks (IoBytes b :: f) =
  if block_len b =? 0 then Ok []
  else if (12 <=? block_len b) && (block_len b <=? 516) then rest <- redoBlocks f ;; Ok (firstn (Z.to_nat (used (block_len b) - 12)) (skipn 12 b) ++ rest)
  else Panic.
Proof.
  intros H1 H2. cbn [redoBlocks]. rewrite block_read by assumption. rewrite block_header by assumption. cbn [bind].
  destruct (block_len b =? 0); [reflexivity|]. fold (used (block_len b)). change LOG_BLOCK_TRL_SIZE with 4. cbv zeta. fold (used (block_len b)).
  pose proof (block_range b H2 H1) as R. change LOG_BLOCK_HDR_SIZE with 12. 
  destruct ((12 <=? block_len b) && (block_len b <=? 516)) eqn:E.
  - rewrite slice_ok by (unfold used; destruct (block_len b >=? 512) eqn:G; lia). reflexivity.
  - replace (slice b 12 (used (block_len b))) with (@Panic bytes); [reflexivity|]. unfold slice.
    replace ((0 <=? 12) && (12 <=? used (block_len b)) && (used (block_len b) <=? len b)) with false; [reflexivity|]. unfold used; destruct (block_len b >=? 512) eqn:G; lia.
Qed.
Definition log_events (f : log_file) : list ioev := map IoBytes (lf_header f :: lf_cp1 f :: lf_unused f :: lf_cp2 f :: lf_blocks f).
Lemma blocks_ok : forall bs, Forall log_block bs -> redoBlocks (map IoBytes bs) = Ok (payloads bs).
Proof.
  induction 1 as [|b bs [H1 [H2 H3]] _ IH]; [reflexivity|]. cbn [map]. rewrite block_case by assumption. cbn [payloads]. destruct (block_len b =? 0) eqn:E0; [reflexivity|].
  replace ((12 <=? block_len b) && (block_len b <=? 516)) with true by lia. rewrite IH. cbn [bind]. unfold block_payload, used.
  destruct (block_len b =? 512) eqn:E1; destruct (block_len b >=? 512) eqn:E2; try lia; [|reflexivity]. now replace (block_len b - 4) with 508 by lia.
Qed.
Lemma zero_index d : forall i, 0 <= i -> In 0 d -> i <= index_zero d i < i + len d.
Proof.
  induction d as [|b d IH]; intros i Hi [].
  - subst b. cbn [index_zero]. change (0 =? 0) with true. cbv iota. rewrite len_cons. pose proof (len_nonneg d). lia.
  - cbn [index_zero]. rewrite len_cons. pose proof (len_nonneg d). destruct (b =? 0); [lia|]. specialize (IH (i + 1) ltac:(lia) H). lia.
Qed.
Lemma no_zero_index d : forall i, ~ In 0 d -> index_zero d i = -1.
Proof.
  induction d as [|b d IH]; intros i H; [reflexivity|]. cbn [index_zero]. cbn in H. replace (b =? 0) with false by lia. apply IH. tauto.
Qed.
Lemma header_case h f : len h = 512 -> all_bytes h -> readRedoLogFileHeader (IoBytes h :: f) = if existsb (Z.eqb 0) (skipn 16 h) then Ok (None, f) else Panic.
Proof.
  intros H1 H2. unfold readRedoLogFileHeader. rewrite next_read by assumption. rewrite mrf4_spec by assumption. replace (4 <=? len h) with true by lia. cbn [bind].
  rewrite (slice_from_ok h 4) by lia. cbn [bind]. rewrite mrf4_spec by now apply all_bytes_skipn. rewrite len_skipn by lia. replace (4 <=? len h - Z.of_nat (Z.to_nat 4)) with true by lia. cbn [bind].
  rewrite (slice_from_ok h 8) by lia. cbn [bind]. rewrite mrf8_spec by now apply all_bytes_skipn. rewrite len_skipn by lia. replace (8 <=? len h - Z.of_nat (Z.to_nat 8)) with true by lia. cbn [bind].
  rewrite (slice_from_ok h 16) by lia. cbn [bind]. change (Z.to_nat 16) with 16%nat. destruct (existsb (Z.eqb 0) (skipn 16 h)) eqn:E.
  - apply existsb_exists in E as [z [E1 E2]]. apply Z.eqb_eq in E2. subst z. pose proof (zero_index _ 0 ltac:(lia) E1) as R. rewrite len_skipn in R by lia.
    rewrite slice_ok by lia. cbn [bind]. rewrite slice_from_ok by lia. reflexivity.
  - rewrite no_zero_index; [|intro X; assert (K : existsb (Z.eqb 0) (skipn 16 h) = true) by (apply existsb_exists; exists 0; split; [exact X|reflexivity]); congruence].
    reflexivity.
Qed.
Lemma file_read f rest : file_ok f -> redoFiles (Some (log_events f) :: rest) = (r <- redoFiles rest ;; match r with inl d => Ok (inl (payloads (lf_blocks f) ++ d)) | inr e => Ok (inr e) end).
Proof.
  intros [H1 [H2 [H3 [H4 [H5 [H6 H7]]]]]]. change (@zlen) with (@len) in *. unfold log_events. cbn [map redoFiles]. rewrite header_case by assumption.
  replace (existsb (Z.eqb 0) (skipn 16 (lf_header f))) with true by (symmetry; apply existsb_exists; exists 0; split; [exact H2|reflexivity]). cbn [bind].
  unfold readRedoLogFileCheckpoint. rewrite next_read by assumption. rewrite next_read by assumption. rewrite next_read by assumption. rewrite blocks_ok by assumption. reflexivity.
Qed.
Lemma files_read fs : Forall file_ok fs -> redoFiles (map (fun f => Some (log_events f)) fs) = Ok (inl (flat_map (fun f => payloads (lf_blocks f)) fs)).
Proof. induction 1 as [|f fs H _ IH]; [reflexivity|]. cbn [map flat_map]. rewrite file_read by assumption. rewrite IH. reflexivity. Qed.
Lemma parse_files rt tm db tb fs spare : Forall file_ok fs ->
  ParseRedoLogs rt tm db tb (map (fun f => Some (log_events f)) fs) spare = parseRedoBlockData rt tm db tb (flat_map (fun f => payloads (lf_blocks f)) fs) spare.
Proof.
  intro H. unfold ParseRedoLogs. rewrite files_read by assumption. unfold wbind, wlift. destruct (parseRedoBlockData _ _ _ _ _ _). reflexivity.
Qed.
Lemma payloads_bytes bs : Forall log_block bs -> all_bytes (payloads bs).
Proof.
  induction 1 as [|b bs [H1 [H2 H3]] _ IH]; [constructor|]. cbn [payloads]. destruct (block_len b =? 0); [constructor|]. apply all_bytes_app. split; [|exact IH].
  unfold block_payload. now apply all_bytes_firstn, all_bytes_skipn.
Qed.
Lemma logs_bytes fs : Forall file_ok fs -> all_bytes (flat_map (fun f => payloads (lf_blocks f)) fs).
Proof.
  induction 1 as [|f fs H _ IH]; [constructor|]. cbn [flat_map]. apply all_bytes_app. split; [|exact IH]. destruct H as [_ [_ [_ [_ [_ [_ H]]]]]]. now apply payloads_bytes.
Qed.
Lemma requested_dec want_db want_tb d t : {requested want_db want_tb d t} + {~ requested want_db want_tb d t}.
Proof.
  assert (D : forall a b : bytes, {a = b} + {a <> b}) by (apply list_eq_dec, Z.eq_dec). unfold requested.
  destruct (D want_db []), (D want_db d), (D want_tb []), (D want_tb t); (left; tauto) || (right; tauto).
Qed.
