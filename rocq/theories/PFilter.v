(** What the redo command's output depends on: the names requested matter only
    through the tables they select. *)
From Verif Require Import GoBase Utils Ibdata Redo Cmd PBase.
Local Open Scope list_scope.

Lemma pbind_ext {A B} (m m' : P A) (k k' : A -> P B) : (forall s, m s = m' s) -> (forall a s, k a s = k' a s) -> forall s, pbind m k s = pbind m' k' s.
Proof. intros Hm Hk s. unfold pbind. rewrite Hm. destruct (m' s) as [[o s'] [a| |]]; [|reflexivity|reflexivity]. now rewrite Hk. Qed.
Lemma wbind_ext {A B} (m : W A) (k k' : A -> W B) : (forall a, k a = k' a) -> wbind m k = wbind m k'.
Proof. intro H. unfold wbind. destruct m as [o [a| |]]; [|reflexivity|reflexivity]. now rewrite H. Qed.
Lemma precover_ext {A} (m m' : P A) h s : (forall s, m s = m' s) -> precover m h s = precover m' h s.
Proof. intro H. unfold precover. now rewrite H. Qed.

Section Filter.
Variables (rt : runtime) (tm : gomap Table) (db tb db' tb' : bytes).
Hypothesis same : forall k t, mget tm k = Some t -> redo_filter db tb t = redo_filter db' tb' t.
Lemma undo_body data spare start n s : mlogUndoInsert_body rt tm db tb data spare start n s = mlogUndoInsert_body rt tm db' tb' data spare start n s.
Proof.
  unfold mlogUndoInsert_body. cbv zeta.
  apply pbind_ext; [reflexivity|intros x1 s1]. apply pbind_ext; [reflexivity|intros x2 s2].
  apply pbind_ext; [reflexivity|intros [un e1] s3]. destruct e1; [reflexivity|].
  apply pbind_ext; [reflexivity|intros x4 s4]. apply pbind_ext; [reflexivity|intros [id e2] s5]. destruct e2; [reflexivity|].
  apply pbind_ext; [reflexivity|intros x6 s6]. apply pbind_ext; [reflexivity|intros x7 s7].
  unfold getTableByTableID. destruct (mget tm id) as [t|] eqn:E; [|reflexivity].
  apply pbind_ext; [reflexivity|intros [ks e3] s8]. destruct e3; [reflexivity|].
  apply pbind_ext; [|reflexivity]. intro s9. destruct (_ =? _); [|reflexivity].
  apply pbind_ext; [reflexivity|intros [[cn num] e4] s10]. destruct e4; [reflexivity|].
  apply pbind_ext; [reflexivity|intros x11 s11]. apply pbind_ext; [reflexivity|intros [cs e5] s12]. destruct e5; [reflexivity|].
  rewrite (same id t E). reflexivity.
Qed.
Lemma switch_same data spare ty s : redo_switch rt tm db tb data spare ty s = redo_switch rt tm db' tb' data spare ty s.
Proof.
  unfold redo_switch. cbv zeta. do 2 (match goal with |- context [if ?c then _ else _] => destruct c; [reflexivity|] end).
  match goal with |- context [if ?c then _ else _] => destruct c; [|reflexivity] end.
  unfold dropped. apply pbind_ext; [|reflexivity]. intro s1. unfold mlogUndoInsert.
  apply pbind_ext; [reflexivity|intros x1 s2]. apply pbind_ext; [reflexivity|intros x2 s3]. apply pbind_ext; [reflexivity|intros x3 s4].
  apply precover_ext. intro s5. apply undo_body.
Qed.
Lemma step_same data spare s : redo_step rt tm db tb data spare s = redo_step rt tm db' tb' data spare s.
Proof.
  unfold redo_step. apply pbind_ext; [reflexivity|intros x1 s1]. apply pbind_ext; [reflexivity|intros x2 s2]. apply pbind_ext; [reflexivity|intros x3 s3].
  destruct (_ =? _); [reflexivity|]. cbv zeta. destruct (negb _); [|apply switch_same].
  apply pbind_ext; [reflexivity|intros [[a num] e] s4]. apply pbind_ext; [reflexivity|intros x5 s5]. destruct e; [reflexivity|].
  apply pbind_ext; [reflexivity|intros [[a' num'] e'] s6]. apply pbind_ext; [reflexivity|intros x7 s7]. destruct e'; [reflexivity|].
  destruct (negb _); [reflexivity|apply switch_same].
Qed.
Lemma loop_same fuel data spare : forall s, redo_loop fuel rt tm db tb data spare s = redo_loop fuel rt tm db' tb' data spare s.
Proof.
  induction fuel as [|f IH]; intro s; [reflexivity|]. cbn [redo_loop]. apply pbind_ext; [reflexivity|intros p s1].
  destruct (_ || _); [reflexivity|]. apply pbind_ext; [intro; apply step_same|intros [e|] s2; [reflexivity|apply IH]].
Qed.
Lemma logs_same files spare : ParseRedoLogs rt tm db tb files spare = ParseRedoLogs rt tm db' tb' files spare.
Proof.
  unfold ParseRedoLogs. apply wbind_ext. intros [data|e]; [|reflexivity]. unfold parseRedoBlockData. now rewrite loop_same.
Qed.
End Filter.
(** a table name alone decides *)
Lemma table_decides db tb t : tb <> [] -> redo_filter db tb t = redo_filter [] tb t.
Proof.
  intro H. unfold redo_filter. assert (N : beq tb [] = false) by (apply not_true_iff_false; rewrite beq_eq; exact H). rewrite N, !andb_false_r. cbn [negb andb].
  assert (S : beq (t_name t) tb = beq tb (t_name t)) by (apply eq_true_iff_eq; rewrite !beq_eq; split; congruence). rewrite S.
  destruct (beq (t_db t) db), (beq (t_db t) []), (beq tb (t_name t)); reflexivity.
Qed.
