(** Property C33 for arbitrary files: what the names requested do to the output
    of the redo command. *)
From Verif Require Import GoBase Utils Ibdata Redo Cmd SpecText SpecSql SpecCmd PBase PSql POut PFilter PUndo.
From Coq Require Import Lia ZifyBool.
Local Open Scope Z_scope.
Local Open Scope list_scope.

Definition tagged : Type := option Table * bytes.
Definition sel (db tb : bytes) (l : list tagged) : list bytes :=
  flat_map (fun x => match fst x with Some t => if redo_filter db tb t then [snd x] else [] | None => [snd x] end) l.
Definition note (line : bytes) : Prop := line = decimal_message \/ line = compressed_message.
Lemma sel_app db tb a b : sel db tb (a ++ b) = sel db tb a ++ sel db tb b.
Proof. apply flat_map_app. Qed.
Lemma sel_notes db tb o : sel db tb (map (pair None) o) = o.
Proof. induction o as [|x o IH]; [reflexivity|]. cbn. f_equal. exact IH. Qed.

Section Family.
Variables (rt : runtime) (tm : gomap Table).
Definition ok1 (x : tagged) : Prop :=
  match fst x with None => note (snd x) | Some t => (exists k, mget tm k = Some t) /\ exists keys cols, snd x = update_statement rt t keys cols end.
Definition fam {A} (M : bytes -> bytes -> P A) : Prop :=
  forall s, exists l s' r, Forall ok1 l /\ forall db tb, M db tb s = (sel db tb l, s', r).
Lemma fam_const {A} (m : P A) : pout note m -> fam (fun _ _ => m).
Proof.
  intros H s. specialize (H s). destruct (m s) as [[o s'] r]. cbn [fst] in H. exists (map (pair None) o), s', r. split.
  - apply Forall_forall. intros x Hx. apply in_map_iff in Hx as [y [<- Hy]]. rewrite Forall_forall in H. exact (H y Hy).
  - intros. now rewrite sel_notes.
Qed.
Lemma fam_bind {A B} (M : bytes -> bytes -> P A) (K : bytes -> bytes -> A -> P B) :
  fam M -> (forall a, fam (fun db tb => K db tb a)) -> fam (fun db tb => pbind (M db tb) (K db tb)).
Proof.
  intros HM HK s. destruct (HM s) as [l [s' [r [Hl E]]]]. destruct r as [a| |].
  - destruct (HK a s') as [l2 [s2 [r2 [Hl2 E2]]]]. exists (l ++ l2), s2, r2. split; [now apply Forall_app|]. intros. unfold pbind. now rewrite E, E2, sel_app.
  - exists l, s', Panic. split; [exact Hl|]. intros. unfold pbind. now rewrite E.
  - exists l, s', NoFuel. split; [exact Hl|]. intros. unfold pbind. now rewrite E.
Qed.
Lemma fam_recover {A} (M : bytes -> bytes -> P A) h : fam M -> pout note h -> fam (fun db tb => precover (M db tb) h).
Proof.
  intros HM Hh s. destruct (HM s) as [l [s' [r [Hl E]]]]. destruct r as [a| |].
  - exists l, s', (Ok a). split; [exact Hl|]. intros. unfold precover. now rewrite E.
  - destruct (fam_const h Hh s') as [l2 [s2 [r2 [Hl2 E2]]]]. exists (l ++ l2), s2, r2. split; [now apply Forall_app|]. intros. unfold precover. rewrite E, (E2 db tb), sel_app. reflexivity.
  - exists l, s', NoFuel. split; [exact Hl|]. intros. unfold precover. now rewrite E.
Qed.
Lemma Hn1 : note decimal_line. Proof. now left. Qed.
Lemma Hn2 : note err_short_compressed. Proof. now right. Qed.
Ltac po := repeat first
  [ apply po_ret | apply po_lift | apply po_getpos | apply po_setpos | apply po_advance | apply po_readat | apply po_comp | apply po_index | apply po_insert; exact Hn2 | apply po_ull; exact Hn2
  | apply po_dropped | apply po_andthen | apply po_bind; [|intro] | apply po_recover
  | match goal with |- pout _ (match ?x with _ => _ end) => destruct x end ].
Ltac fc := apply fam_const; po.
Lemma fam_body data spare start n : fam (fun db tb => mlogUndoInsert_body rt tm db tb data spare start n).
Proof.
  unfold mlogUndoInsert_body, getTableByTableID. cbv zeta.
  apply (fam_bind (fun _ _ => _)); [fc|intro]. apply (fam_bind (fun _ _ => _)); [fc|intro]. apply (fam_bind (fun _ _ => _)); [fc|intros [no [e|]]]; [fc|].
  apply (fam_bind (fun _ _ => _)); [fc|intro]. apply (fam_bind (fun _ _ => _)); [fc|intros [id [e|]]]; [fc|]. apply (fam_bind (fun _ _ => _)); [fc|intro]. apply (fam_bind (fun _ _ => _)); [fc|intro].
  destruct (mget tm id) as [t|] eqn:Et; [|fc]. apply (fam_bind (fun _ _ => _)); [apply fam_const, po_keys; exact Hn1|intros [keys [e|]]]; [fc|].
  apply (fam_bind (fun db tb => _)); [|intros [e|]; fc].
  destruct (_ =? TRX_UNDO_UPD_EXIST_REC); [|fc]. apply (fam_bind (fun _ _ => _)); [fc|intros [[v m] [e|]]]; [fc|]. apply (fam_bind (fun _ _ => _)); [fc|intro].
  apply (fam_bind (fun _ _ => _)); [apply fam_const, po_cols; exact Hn1|intros [cols [e|]]]; [fc|]. apply (fam_bind (fun db tb => _)); [|intro; fc].
  intro s. exists [(Some t, update_statement rt t keys cols)], s, (Ok tt). split.
  - constructor; [|constructor]. split; [now exists id|]. now exists keys, cols.
  - intros db tb. cbn. now destruct (redo_filter db tb t).
Qed.
Lemma fam_switch data spare ty : fam (fun db tb => redo_switch rt tm db tb data spare ty).
Proof.
  unfold redo_switch, mlogNBytes, mlogRecSecDeleteMark, mlogUndoInit, mlogUndoHdrReuse, mlogUndoHdrCreate, mlogWriteString, mlogFileOp, mlogRecInsert, mlogRecClustDeleteMark,
      mlogCompRecSecDeleteMark, mlogRecUpdateInPlace, mlogRecDelete, mlogListDelete, mlogListEndCopyCreated, mlogPageReorganize, mlogZipWriteNodePtr, mlogZipWriteHeader, mlogZipPageCompress, mlogZipPageCompressNoData. cbv zeta.
  do 2 (match goal with |- context [if ?c then _ else _] => destruct c; [fc|] end).
  match goal with |- context [if ?c then _ else _] => destruct c end.
  - unfold dropped. apply (fam_bind (fun db tb => _)); [|intro; fc]. unfold mlogUndoInsert. apply (fam_bind (fun _ _ => _)); [fc|intro]. apply (fam_bind (fun _ _ => _)); [fc|intro]. apply (fam_bind (fun _ _ => _)); [fc|intro].
    apply fam_recover; [apply fam_body|po].
  - apply fam_const. repeat match goal with |- pout _ (if ?b then _ else _) => destruct b end; po; first [apply po_update|apply po_copy; exact Hn2].
Qed.
Lemma fam_step data spare : fam (fun db tb => redo_step rt tm db tb data spare).
Proof.
  unfold redo_step. cbv zeta. apply (fam_bind (fun _ _ => _)); [fc|intro]. apply (fam_bind (fun _ _ => _)); [fc|intro]. apply (fam_bind (fun _ _ => _)); [fc|intro].
  destruct (_ =? _); [fc|]. destruct (negb _); [|apply fam_switch].
  apply (fam_bind (fun _ _ => _)); [fc|intros [[v1 num] e]]. apply (fam_bind (fun _ _ => _)); [fc|intro]. destruct e; [fc|].
  apply (fam_bind (fun _ _ => _)); [fc|intros [[v2 num'] e]]. apply (fam_bind (fun _ _ => _)); [fc|intro]. destruct e; [fc|].
  destruct (negb _); [fc|apply fam_switch].
Qed.
Lemma fam_loop fuel data spare : fam (fun db tb => redo_loop fuel rt tm db tb data spare).
Proof.
  induction fuel as [|f IH]; cbn [redo_loop]; [fc|]. apply (fam_bind (fun _ _ => _)); [fc|intro]. destruct (_ || _); [fc|].
  apply (fam_bind (fun db tb => _)); [apply fam_step|intros [e|]; [fc|exact IH]].
Qed.
Lemma fam_logs files spare : exists l r, Forall ok1 l /\ forall db tb, ParseRedoLogs rt tm db tb files spare = (sel db tb l, r).
Proof.
  unfold ParseRedoLogs. destruct (wlift _) as [o [[data|e]| |]] eqn:E; unfold wlift in E; injection E as <- E.
  - destruct (fam_loop (S (List.length data)) data spare 0) as [l [s' [r [Hl H]]]]. exists l, r. split; [exact Hl|]. intros. cbn [wbind]. unfold parseRedoBlockData. now rewrite H.
  - exists [], (Ok (Some e)). split; [constructor|reflexivity].
  - exists [], Panic. split; [constructor|reflexivity].
  - exists [], NoFuel. split; [constructor|reflexivity].
Qed.
End Family.

(** * The whole command *)
Definition names (t : Table) : list Z * list Z := (t_db t, t_name t).
Definition plain (x : tagged) : option (list Z * list Z) * list Z := (option_map names (fst x), snd x).
(** What one entry of a log's content may be: a message, the error that ended
    the command, or an UPDATE statement of a table of the dictionary. *)
Definition content (fuel : nat) (rt : runtime) (files : fs) (sys : bytes) (x : option (list Z * list Z) * list Z) : Prop :=
  match x with
  | (None, line) => line = decimal_message \/ line = compressed_message \/ exists e, line = txt "parse redo failed, error:  " ++ e
  | (Some (db, tb), line) => update_line db tb line
      /\ exists tm k t, snd (ParseDictPage fuel rt (files sys)) = Ok (tm, None) /\ mget tm k = Some t /\ t_db t = db /\ t_name t = tb
  end.
Lemma tagged_command fuel rt files sys opt spare : exists l r, Forall (content fuel rt files sys) (map plain l)
  /\ forall db tb, FromRedoFile fuel rt files sys opt db tb spare = (sel db tb l, r).
Proof.
  unfold FromRedoFile. pose proof (dict_silent rt fuel (files sys)) as Hd.
  destruct (ParseDictPage fuel rt (files sys)) as [o [[tm [e|]]| |]] eqn:ED; cbn [fst] in Hd; subst o; cbn [wbind];
    [exists [], (Ok tt)| |exists [], Panic|exists [], NoFuel]; try (split; [constructor|reflexivity]).
  destruct (fam_logs rt tm (map files (redo_files opt)) spare) as [l [r [Hl E]]].
  assert (Hc : Forall (content fuel rt files sys) (map plain l)).
  { apply Forall_forall. intros x Hx. apply in_map_iff in Hx as [[[t|] line] [<- Hx]]; rewrite Forall_forall in Hl; specialize (Hl _ Hx); unfold ok1 in Hl; cbn [fst snd] in Hl; cbn [content plain fst snd option_map names].
    - destruct Hl as [[k Hk] [keys [cols ->]]]. split; [eexists; eexists; unfold update_statement; reflexivity|]. exists tm, k, t. rewrite ED. repeat split; exact Hk.
    - destruct Hl as [H|H]; [now left|right; now left]. }
  destruct r as [[e|]| |].
  - exists (l ++ [(None, bs "parse redo failed, error:  " ++ e)]), (Ok tt). split.
    + rewrite map_app. apply Forall_app. split; [exact Hc|]. constructor; [|constructor]. right. right. now exists e.
    + intros. rewrite E, sel_app. reflexivity.
  - exists l, (Ok tt). split; [exact Hc|]. intros. rewrite E. cbn. now rewrite app_nil_r.
  - exists l, Panic. split; [exact Hc|]. intros. rewrite E. reflexivity.
  - exists l, NoFuel. split; [exact Hc|]. intros. rewrite E. reflexivity.
Qed.
Lemma requested_dec wd wt d t : requested wd wt d t \/ ~ requested wd wt d t.
Proof.
  unfold requested. destruct (list_eq_dec Z.eq_dec wd []), (list_eq_dec Z.eq_dec wd d), (list_eq_dec Z.eq_dec wt []), (list_eq_dec Z.eq_dec wt t); tauto.
Qed.
Lemma filter_gives db tb t : redo_filter db tb t = true <-> requested db tb (t_db t) (t_name t) \/ (tb <> [] /\ tb = t_name t).
Proof.
  unfold requested. assert (R : forall a b : bytes, {a = b /\ beq a b = true} + {a <> b /\ beq a b = false}).
  { intros a b. destruct (beq a b) eqn:E; [left|right]; split; try reflexivity; [now apply beq_eq|]. intro X. apply beq_eq in X. congruence. }
  unfold redo_filter. destruct (R (t_db t) db) as [[A EA]|[A EA]]; rewrite EA.
  - subst db. destruct (R (t_name t) tb) as [[B EB]|[B EB]]; rewrite EB; [subst tb; tauto|]. destruct (R tb []) as [[C EC]|[C EC]]; rewrite EC; [tauto|]. split; [discriminate|]. intros [[_ [X|X]]|[_ X]]; congruence.
  - destruct (R db []) as [[B EB]|[B EB]]; rewrite EB; destruct (R tb []) as [[C EC]|[C EC]]; rewrite EC; cbn [andb negb]; try tauto;
      destruct (R tb (t_name t)) as [[X EX]|[X EX]]; rewrite ?EX; try tauto; (split; [discriminate|intros [[Y [Z|Z]]|[Y Z]]; try congruence; destruct Y; congruence]).
Qed.
(** the exact condition *)
Definition apart (db tb : list Z) (l : list (option (list Z * list Z) * list Z)) : Prop :=
  forall d t, In (Some (d, t)) (map fst l) -> db = [] \/ tb = [] \/ db = d \/ tb <> t.
Lemma sel_right db tb l : apart db tb (map plain l) -> selected db tb (map plain l) (sel db tb l).
Proof.
  induction l as [|[[t|] line] l IH]; intro H; [constructor| |].
  - cbn [map sel flat_map plain fst snd option_map names]. assert (HI : selected db tb (map plain l) (sel db tb l)) by (apply IH; intros d' t' Hin; apply H; now right).
    specialize (H (t_db t) (t_name t) (or_introl eq_refl)). fold (sel db tb l).
    destruct (redo_filter db tb t) eqn:E.
    + apply filter_gives in E. apply sel_in; [|exact HI]. destruct E as [E|[N E]]; [exact E|]. unfold requested. subst tb. destruct H as [H|[H|[H|H]]]; tauto.
    + apply sel_out; [|exact HI]. intro X. assert (Y : redo_filter db tb t = true) by (apply filter_gives; now left). congruence.
  - cbn [map sel flat_map plain fst snd option_map app]. apply sel_message. apply IH. intros d' t' Hin. apply H. now right.
Qed.
Lemma sel_length db tb l lines : selected db tb (map plain l) lines -> (List.length lines <= List.length (sel db tb l))%nat /\
  (List.length lines = List.length (sel db tb l) -> apart db tb (map plain l)).
Proof.
  revert lines. induction l as [|[[t|] line] l IH]; intros lines H.
  - inversion H; subst. split; [apply le_n|]. intros _ d t [].
  - cbn [map plain fst snd option_map names] in H. cbn [sel flat_map fst snd map plain option_map names]. fold (sel db tb l). inversion H as [|? ? ? ?|? ? ? ? ls HR HS|? ? ? ? ls HR HS]; subst; destruct (IH _ HS) as [I1 I2].
    + assert (E : redo_filter db tb t = true) by (apply filter_gives; now left). rewrite E. cbn [app List.length]. split; [lia|]. intros L d' t' [X|X]; [|apply I2; [lia|exact X]].
      injection X as <- <-. destruct HR as [[?|?] _]; tauto.
    + destruct (redo_filter db tb t) eqn:E; cbn [app List.length]; (split; [lia|]); [lia|]. intros L d' t' [X|X]; [|apply I2; [lia|exact X]]. injection X as <- <-.
      destruct (list_eq_dec Z.eq_dec tb []) as [N|N]; [tauto|]. right. right. right. intro X. assert (Y : redo_filter db tb t = true) by (apply filter_gives; now right). congruence.
  - cbn [map plain fst snd option_map] in H. cbn [sel flat_map fst snd map plain option_map app]. fold (sel db tb l). inversion H as [|? ? ls HS| |]; subst. destruct (IH _ HS) as [I1 I2]. cbn [List.length].
    split; [lia|]. intros L d' t' [X|X]; [discriminate|apply I2; [lia|exact X]].
Qed.
(** Full statement: whatever the files hold, there is one content of the log -
    messages and UPDATE statements of tables of the dictionary - and for any
    names requested exactly the other tables' statements are left out, with the
    same end of the command.  Proved unless both names are given and a
    statement is about a table of the requested name in another database.
    Missing (false): that case (C33_any_file_refuted). *)
Theorem C33_any_file_partial : forall fuel rt files sys opt spare, exists l r,
  Forall (content fuel rt files sys) l /\
  forall db tb, apart db tb l -> exists lines, FromRedoFile fuel rt files sys opt db tb spare = (lines, r) /\ selected db tb l lines.
Proof.
  intros fuel rt files sys opt spare. destruct (tagged_command fuel rt files sys opt spare) as [l [r [Hl H]]]. exists (map plain l), r. split; [exact Hl|].
  intros db tb Ha. exists (sel db tb l). split; [apply H|now apply sel_right].
Qed.
Print Assumptions C33_any_file_partial.
(** Exactly when the output is right: for all files and all names. *)
Theorem C33_any_file_refuted : forall fuel rt files sys opt spare, exists l r,
  Forall (content fuel rt files sys) l /\
  forall db tb, exists lines, FromRedoFile fuel rt files sys opt db tb spare = (lines, r) /\
    (selected db tb l lines <-> apart db tb l) /\ (tb <> [] -> selected [] tb l lines).
Proof.
  intros fuel rt files sys opt spare. destruct (tagged_command fuel rt files sys opt spare) as [l [r [Hl H]]]. exists (map plain l), r. split; [exact Hl|].
  intros db tb. exists (sel db tb l). split; [apply H|]. split; [split; [intro X; now apply (sel_length db tb l _ X)|apply sel_right]|].
  intro N. assert (E : sel db tb l = sel [] tb l).
  { clear - N. induction l as [|[[t|] line] l IH]; [reflexivity| |]; cbn [sel flat_map fst snd]; fold (sel db tb l) (sel [] tb l); rewrite IH; [|reflexivity]. now rewrite (table_decides db tb t N). }
  rewrite E. apply sel_right. intros d t _. now left.
Qed.
Print Assumptions C33_any_file_refuted.
(** two updates, of b.t and of a.t, the second with a DECIMAL key *)
Example C33_any_file_case rt :
  let t1 := mkTable (txt "b") (txt "t") [mkColumn (txt "id") 6 3 0 4 VNil false false true 0] [(1, mkIndex 1 (txt "PRIMARY") 1 3 [mkField 0 (txt "id")])] 0 0 in
  let t2 := mkTable (txt "a") (txt "t") [mkColumn (txt "id") 3 246 0 3 VNil false false false 0] [(1, mkIndex 1 (txt "PRIMARY") 1 3 [mkField 0 (txt "id")])] 0 0 in
  let data := [20; 0; 5; 0; 27; 12; 3; 40; 0; 0; 0; 0; 0; 77; 0; 0; 0; 0; 99; 4; 0; 0; 0; 7; 1; 0; 4; 0; 0; 0; 8; 0]
    ++ [20; 0; 5; 0; 25; 12; 3; 41; 0; 0; 0; 0; 0; 77; 0; 0; 0; 0; 99; 3; 128; 0; 7; 1; 0; 3; 128; 0; 8; 0; 31; 31; 31; 31; 31] in
  let run db tb := fst (parseRedoBlockData rt [(40, t1); (41, t2)] db tb data 0) in
  exists l, map fst l = [Some (txt "b", txt "t"); None; None; Some (txt "a", txt "t")]
  /\ selected [] [] l (run [] []) /\ selected (txt "a") [] l (run (txt "a") []) /\ selected [] (txt "t") l (run [] (txt "t")) /\ selected (txt "a") (txt "x") l (run (txt "a") (txt "x"))
  /\ List.length (run (txt "a") []) = 3%nat /\ List.length (run (txt "a") (txt "t")) = 4%nat /\ ~ apart (txt "a") (txt "t") l.
Proof.
  intros t1 t2 data run.
  exists [(Some (txt "b", txt "t"), txt "update `b`.`t` set `id`='8' where `id`='7';"); (None, decimal_message); (None, decimal_message);
     (Some (txt "a", txt "t"), txt "update `a`.`t` set `id`='" ++ [128; 0; 8] ++ txt "' where `id`='" ++ [128; 0; 7] ++ txt "';")].
  assert (E1 : run [] [] = map snd [(Some (txt "b", txt "t"), txt "update `b`.`t` set `id`='8' where `id`='7';"); (None, decimal_message); (None, decimal_message);
     (Some (txt "a", txt "t"), txt "update `a`.`t` set `id`='" ++ [128; 0; 8] ++ txt "' where `id`='" ++ [128; 0; 7] ++ txt "';")]) by reflexivity.
  split; [reflexivity|]. split; [rewrite E1|split; [change (run (txt "a") []) with (skipn 1 (run [] [])); rewrite E1|split; [change (run [] (txt "t")) with (run [] []); rewrite E1|split;
    [change (run (txt "a") (txt "x")) with [decimal_message; decimal_message]|]]]].
  - repeat (apply sel_in; [split; now left|] || apply sel_message || apply sel_nil).
  - apply sel_out; [intros [[X|X] _]; discriminate|]. apply sel_message, sel_message, sel_in; [split; [now right|now left]|apply sel_nil].
  - repeat (apply sel_in; [split; [now left|now right]|] || apply sel_message || apply sel_nil).
  - apply sel_out; [intros [[X|X] _]; discriminate|]. apply sel_message, sel_message, sel_out; [intros [_ [X|X]]; discriminate|apply sel_nil].
  - split; [reflexivity|]. split; [reflexivity|]. intro H. specialize (H (txt "b") (txt "t") (or_introl eq_refl)). destruct H as [H|[H|[H|H]]]; try discriminate. now apply H.
Qed.
