(** C121: data files with encrypted or compressed pages. *)
From Coq Require Import String ZifyBool.
From Verif Require Import GoBase Utils Ibdata Cmd SpecInno SpecText SpecSql SpecRecord SpecRow SpecPage SpecDict SpecTool SpecCmd SpecSeal
  PBase PWire PValue PText PRec PPage PSql PFile PDict PBuild PTool PLarge PropFile PropDict PropTool PropPrefix PropChars.
Local Open Scope string_scope.
Local Open Scope list_scope.
Local Open Scope Z_scope.

Lemma sealed_not_eligible deleted q : sealed_page q = true -> eligible deleted q = false.
Proof.
  unfold sealed_page, eligible, sealed_types. cbn [existsb]. intro H. destruct (Z.eqb_spec (field q 24 2) 17855) as [E|_]; [rewrite E in H; discriminate|reflexivity].
Qed.
Lemma filter_filter {A} (f g : A -> bool) l : (forall x, f x = true -> g x = true) -> filter f (filter g l) = filter f l.
Proof.
  intro H. induction l as [|x l IH]; [reflexivity|]. cbn [filter]. destruct (g x) eqn:G; cbn [filter].
  - rewrite IH. reflexivity.
  - destruct (f x) eqn:F; [rewrite (H x F) in G; discriminate|exact IH].
Qed.

(** The pages that are sealed do not count: a data file gives what its other
    pages give. *)
Lemma seal_skipped fuel rt tm pages db tb deleted : Forall page_image pages -> NoDup (map page_number pages) ->
  ParseDataPage (S fuel) rt tm (Some (map IoBytes pages)) db tb deleted
  = ParseDataPage (S fuel) rt tm (Some (map IoBytes (filter (fun q => negb (sealed_page q)) pages))) db tb deleted.
Proof.
  intros Hi Hn. assert (Hi' : Forall page_image (filter (fun q => negb (sealed_page q)) pages)).
  { apply Forall_forall. intros q Hq. apply filter_In in Hq as [Hq _]. rewrite Forall_forall in Hi. now apply Hi. }
  assert (Own : forall l : list (list Z), NoDup (map page_number l) -> filter (eligible deleted) (firsts l) = filter (eligible deleted) l).
  { intros l Hl. apply firsts_own. intros l1 p l2 -> _. apply Forall_forall. intros q Hq E. rewrite map_app in Hl. cbn [map] in Hl. apply NoDup_remove_2 in Hl. apply Hl. apply in_or_app. left.
    rewrite <- E. now apply in_map. }
  rewrite (C45_eligible fuel rt tm pages db tb deleted Hi), (C45_eligible fuel rt tm _ db tb deleted Hi'). do 3 f_equal. rewrite (Own pages Hn), Own.
  - rewrite filter_filter; [reflexivity|]. intros x Hx. destruct (sealed_page x) eqn:S; [rewrite (sealed_not_eligible deleted x S) in Hx; discriminate|reflexivity].
  - clear Own Hi Hi'. induction pages as [|p ps IH]; [exact Hn|]. cbn [map filter] in *. inversion Hn as [|x y H1 H2]; subst. destruct (negb (sealed_page p)); cbn [map]; [|now apply IH].
    constructor; [|now apply IH]. intro X. apply H1. apply in_map_iff in X as [q [E Hq]]. apply filter_In in Hq as [Hq _]. rewrite <- E. now apply in_map.
Qed.

(** C121: false.  Of a table whose pages are all sealed the tool prints
    nothing, not even an error, however many rows they hold. *)
Theorem C121_sealed_refuted : forall fuel rt files op sys tfile d sys_pages t db tb ss pages sealed rows,
  tool_input rt (is_deleted op) d sys_pages t db tb ss pages rows -> Forall2 seals pages sealed ->
  files sys = Some (map IoBytes sys_pages) -> files tfile = Some (map IoBytes sealed) -> (Z.to_nat 16384 < fuel)%nat ->
  FromDataFile fuel rt files op sys tfile db tb = ([], Ok tt).
Proof.
  intros fuel rt files op sys tfile d sys_pages t db tb ss pages sealed rows HI HS F1 F2 Hfuel. destruct HI as [Hs [Hc _]].
  destruct (dict_read fuel rt sys_pages d Hs Hc Hfuel) as [tm [Hd _]]. unfold FromDataFile. rewrite F1, F2, Hd. cbn [wbind].
  assert (Hi : Forall page_image sealed) by (clear - HS; induction HS as [|p q ps qs [_ [H _]] _ IH]; constructor; assumption).
  assert (Hf : filter (eligible (is_recovery op)) (firsts sealed) = []).
  { assert (HA : Forall (fun q => eligible (is_recovery op) q = false) sealed) by (clear - HS; induction HS as [|p q ps qs [_ [_ [_ H]]] _ IH]; constructor; [now apply sealed_not_eligible|exact IH]).
    destruct (filter (eligible (is_recovery op)) (firsts sealed)) as [|q qs] eqn:E; [reflexivity|]. exfalso.
    assert (In q (filter (eligible (is_recovery op)) (firsts sealed))) as Hq by (rewrite E; now left). apply filter_In in Hq as [Hq X]. apply firsts_incl in Hq.
    rewrite Forall_forall in HA. rewrite (HA q Hq) in X. discriminate. }
  destruct fuel as [|fuel]; [lia|]. rewrite (C45_eligible fuel rt tm sealed db tb (is_recovery op) Hi), Hf. reflexivity.
Qed.
Print Assumptions C121_sealed_refuted.
(** Full statement: the rows of all pages are printed, or an error is.  Proved:
    the rows of the pages that are not sealed are printed; missing (false): a
    word about the others. *)
Theorem C121_others_partial : forall fuel rt files op sys tfile d sys_pages t db tb ss pages rows,
  tool_input rt (is_deleted op) d sys_pages t db tb ss (filter (fun q => negb (sealed_page q)) pages) rows -> front_key d (td_id t) ->
  Forall page_image pages -> NoDup (map page_number pages) ->
  files sys = Some (map IoBytes sys_pages) -> files tfile = Some (map IoBytes pages) -> (Z.to_nat 16384 < fuel)%nat ->
  exists lines, FromDataFile fuel rt files op sys tfile db tb = (lines, Ok tt)
    /\ Forall2 (fun r line => read_replace line = Some (db, tb, values (columns_of d (td_id t)) r)) rows lines.
Proof.
  intros fuel rt files op sys tfile d sys_pages t db tb ss pages rows HI Hk Hi Hn F1 F2 Hfuel.
  set (kept := filter (fun q => negb (sealed_page q)) pages) in *.
  destruct (list_eq_dec Z.eq_dec sys tfile) as [->|Hne].
  - rewrite F1 in F2. assert (EP : sys_pages = pages).
    { assert (X : map IoBytes sys_pages = map IoBytes pages) by congruence. clear - X. revert pages X. induction sys_pages as [|p ps IH]; intros [|q qs] X; try discriminate; [reflexivity|].
      cbn [map] in X. apply cons_same in X as [X1 X2]. assert (p = q) as -> by congruence. f_equal. now apply IH. }
    set (files' := fun f => if list_eq_dec Z.eq_dec f [] then Some (map IoBytes kept) else Some (map IoBytes sys_pages)).
    destruct (C82_statements_partial fuel rt files' op [1] [] d sys_pages t db tb ss kept rows HI Hk) as [lines [E H]]; [reflexivity|reflexivity|exact Hfuel|].
    exists lines. split; [|exact H]. rewrite <- E. unfold FromDataFile. rewrite F1. change (files' [1]) with (Some (map IoBytes sys_pages)). change (files' []) with (Some (map IoBytes kept)).
    destruct HI as [Hs [Hc _]]. destruct (dict_read fuel rt sys_pages d Hs Hc Hfuel) as [tm [Hd _]]. rewrite Hd. cbn [wbind].
    destruct fuel as [|fuel]; [lia|]. rewrite EP, (seal_skipped fuel rt tm pages db tb _ Hi Hn). reflexivity.
  - set (files' := fun f => if list_eq_dec Z.eq_dec f tfile then Some (map IoBytes kept) else files f).
    assert (G1 : files' sys = Some (map IoBytes sys_pages)) by (unfold files'; destruct (list_eq_dec Z.eq_dec sys tfile); [contradiction|exact F1]).
    assert (G2 : files' tfile = Some (map IoBytes kept)) by (unfold files'; destruct (list_eq_dec Z.eq_dec tfile tfile); [reflexivity|contradiction]).
    destruct (C82_statements_partial fuel rt files' op sys tfile d sys_pages t db tb ss kept rows HI Hk G1 G2 Hfuel) as [lines [E H]].
    exists lines. split; [|exact H]. rewrite <- E. unfold FromDataFile. rewrite F1, F2, G1, G2.
    destruct HI as [Hs [Hc _]]. destruct (dict_read fuel rt sys_pages d Hs Hc Hfuel) as [tm [Hd _]]. rewrite Hd. cbn [wbind].
    destruct fuel as [|fuel]; [lia|]. rewrite (seal_skipped fuel rt tm pages db tb _ Hi Hn). reflexivity.
Qed.
Print Assumptions C121_others_partial.

(** A page of two rows, encrypted. *)
Definition sealed_g : list Z := firstn 24 page_g ++ [0; 15] ++ repeat 7 (Z.to_nat 16358).
Lemma sealed_g_seals : seals page_g sealed_g.
Proof.
  destruct (page_g_holds (Build_runtime (fun _ => []) (fun _ => []) (fun z => z))) as [Hi _]. inversion Hi as [|x y Hg _]; subst. clear Hi. split; [exact Hg|].
  assert (L : List.length (firstn 24 page_g) = 24%nat) by (vm_compute; reflexivity).
  split; [|split].
  - split; [unfold sealed_g, zlen; rewrite !app_length, L, repeat_length; cbn [List.length]; lia|].
    unfold sealed_g. apply Forall_app. split; [|apply Forall_app; split].
    + destruct Hg as [_ Hb]. rewrite <- (firstn_skipn 24 page_g) in Hb. apply Forall_app in Hb. tauto.
    + repeat (constructor; [lia|]). constructor.
    + apply Forall_forall. intros x Hx. apply repeat_spec in Hx. lia.
  - unfold sealed_g. rewrite <- L at 1. rewrite firstn_app, Nat.sub_diag, firstn_all, firstn_O. now rewrite app_nil_r.
  - vm_compute. reflexivity.
Qed.
Example C121_case rt fuel : (Z.to_nat 16384 < fuel)%nat ->
  tool_input rt (is_deleted (txt "PrintData")) dict_x pages_x (mkTableDef (txt "test/x") 33 5) (txt "test") (txt "x") (key_slots [x_v] [x_w]) [page_g] [row_g; row_e]
  /\ Forall2 seals [page_g] [sealed_g]
  /\ FromDataFile fuel rt (fun f => if list_eq_dec Z.eq_dec f (txt "ibdata1") then Some (map IoBytes pages_x) else Some (map IoBytes [sealed_g])) (txt "PrintData") (txt "ibdata1") (txt "x.ibd") (txt "test") (txt "x")
     = ([], Ok tt).
Proof.
  intro Hf. destruct (chars_input rt) as [HI _]. split; [exact HI|].
  assert (HS : Forall2 seals [page_g] [sealed_g]) by (constructor; [exact sealed_g_seals|constructor]). split; [exact HS|].
  exact (C121_sealed_refuted fuel rt _ (txt "PrintData") (txt "ibdata1") (txt "x.ibd") dict_x pages_x _ (txt "test") (txt "x") _ [page_g] [sealed_g] [row_g; row_e] HI HS eq_refl eq_refl Hf).
Qed.
