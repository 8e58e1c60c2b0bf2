(** Whose rows are printed. *)
From Coq Require Import String ZifyBool.
From Verif Require Import GoBase Utils Ibdata Cmd SpecInno SpecText SpecSql SpecRecord SpecRow SpecPage SpecDict SpecTool SpecHistory SpecLoad SpecCmd SpecOwn
  PBase PWire PRec PPage PFile PNode PBuild PFreed PTool PropTool PropLoad.
Local Open Scope string_scope.
Local Open Scope list_scope.
Local Open Scope Z_scope.

(** * C95 *)
Lemma owners_hold rt deleted ss k pages items : file_owners rt deleted ss k pages items -> file_holds rt deleted ss pages (map (values (users ss)) (map fst items)).
Proof.
  intros [H1 [cs [H2 <-]]]. split; [exact H1|]. exists (map (fun its => map (values (users ss)) (map fst its)) cs). split.
  - clear H1. induction H2 as [|p its ps cs [H _] _ IH]; constructor; assumption.
  - clear. induction cs as [|c cs IH]; [reflexivity|]. cbn [map List.concat]. now rewrite IH, !map_app.
Qed.
Lemma owners_tool rt deleted d sys_pages t db tb ss k pages items : owners_input rt deleted d sys_pages t db tb ss k pages items ->
  tool_input rt deleted d sys_pages t db tb ss pages (map fst items).
Proof. intros [[H1 [H2 [H3 [H4 [H5 [H6 [H7 [H8 [H9 [H10 [H11 _]]]]]]]]]]] [_ HO]]. repeat (split; [assumption|]). now apply owners_hold in HO. Qed.
(** Full statement: the rows in the pages of the table's clustered index are
    printed, and no others.  Proved if all pages that could be read are of
    that index (pages of its other indexes are told by PAGE_MAX_TRX_ID, part of
    [eligible]).  Missing (false): see below. *)
Theorem C95_own_partial : forall fuel rt files op sys tfile d sys_pages t db tb ss k pages items,
  owners_input rt (is_deleted op) d sys_pages t db tb ss k pages items ->
  (forall p, In p (firsts pages) -> index_of p <> k -> eligible (is_deleted op) p = false) ->
  front_key d (td_id t) ->
  files sys = Some (map IoBytes sys_pages) -> files tfile = Some (map IoBytes pages) -> (Z.to_nat 16384 < fuel)%nat ->
  exists lines, FromDataFile fuel rt files op sys tfile db tb = (lines, Ok tt)
    /\ Forall2 (fun r line => read_replace line = Some (db, tb, values (columns_of d (td_id t)) r)) (own_rows items) lines.
Proof.
  intros fuel rt files op sys tfile d sys_pages t db tb ss k pages items HI Hown Hk F1 F2 Hfuel.
  destruct (C82_statements_partial fuel rt files op sys tfile d sys_pages t db tb ss pages _ (owners_tool _ _ _ _ _ _ _ _ _ _ _ HI) Hk F1 F2 Hfuel) as [lines [E H]]. exists lines. split; [exact E|].
  replace (own_rows items) with (map fst items); [exact H|]. destruct HI as [_ [_ [_ [cs [HF <-]]]]].
  assert (Hall : Forall (fun p => index_of p = k) (filter (eligible (is_deleted op)) (firsts pages))).
  { apply Forall_forall. intros p Hp. apply filter_In in Hp as [P1 P2]. destruct (Z.eq_dec (index_of p) k) as [|N]; [assumption|]. rewrite (Hown p P1 N) in P2. discriminate. }
  clear - HF Hall. unfold own_rows. induction HF as [|p its ps cs [_ HP] _ IH]; [reflexivity|]. pose proof (Forall_inv Hall) as Hp. apply Forall_inv_tail in Hall. cbn [List.concat]. rewrite filter_app, !map_app, (IH Hall). f_equal.
  rewrite Hp, Z.eqb_refl in HP. clear - HP. induction HP as [|[r b] its Hb _ IH]; [reflexivity|]. cbn in *. subst b. cbn. now rewrite IH.
Qed.
Print Assumptions C95_own_partial.
(** The rows in every other such page are printed too, as rows of the
    requested table. *)
Theorem C95_own_refuted : forall fuel rt files op sys tfile d sys_pages t db tb ss k pages items,
  owners_input rt (is_deleted op) d sys_pages t db tb ss k pages items -> Exists (fun it => snd it = false) items ->
  front_key d (td_id t) ->
  files sys = Some (map IoBytes sys_pages) -> files tfile = Some (map IoBytes pages) -> (Z.to_nat 16384 < fuel)%nat ->
  exists lines, FromDataFile fuel rt files op sys tfile db tb = (lines, Ok tt)
    /\ Forall2 (fun it line => read_replace line = Some (db, tb, values (columns_of d (td_id t)) (fst it))) items lines
    /\ (List.length (own_rows items) < List.length lines)%nat.
Proof.
  intros fuel rt files op sys tfile d sys_pages t db tb ss k pages items HI Hm Hk F1 F2 Hfuel.
  destruct (C82_statements_partial fuel rt files op sys tfile d sys_pages t db tb ss pages _ (owners_tool _ _ _ _ _ _ _ _ _ _ _ HI) Hk F1 F2 Hfuel) as [lines [E H]]. exists lines. split; [exact E|].
  assert (G : Forall2 (fun it line => read_replace line = Some (db, tb, values (columns_of d (td_id t)) (fst it))) items lines).
  { clear - H. revert lines H. induction items as [|it items IH]; intros lines H; inversion H; subst; constructor; auto. }
  split; [exact G|]. assert (GL : List.length items = List.length lines) by (clear - G; induction G; cbn; congruence). rewrite <- GL. clear - Hm. unfold own_rows. rewrite map_length.
  assert (L : forall l : list (row * bool), (List.length (filter (fun it => snd it) l) <= List.length l)%nat) by (induction l as [|[r m] l IH]; cbn; [lia|destruct m; cbn; lia]).
  induction Hm as [[r m] items E|[r m] items _ IH]; cbn in *; [subst m; cbn; pose proof (L items); lia|destruct m; cbn; lia].
Qed.
Print Assumptions C95_own_refuted.
(** A page of [test.t] and one of another table of the same kind. *)
Definition page_other (id : Z) : list Z := built true 4 17855 id (map (irec 0 (map slot_layout (key_slots [c_id] [c_v]))) [stored_t3]).
Definition page_own : list Z := built true 3 17855 40 (map (irec 0 (map slot_layout (key_slots [c_id] [c_v]))) [stored_t1]).
Example C95_case : forall rt,
  owners_input rt (is_deleted (txt "PrintData")) dict3 pages3 (mkTableDef (txt "test/t") 21 5) (txt "test") (txt "t") (key_slots [c_id] [c_v]) 40 [page_own; page_other 77] [(row_t1, true); (row_t3, false)]
  /\ Exists (fun it => snd it = false) [(row_t1, true); (row_t3, false)] /\ own_rows [(row_t1, true); (row_t3, false)] = [row_t1]
  /\ owners_input rt (is_deleted (txt "PrintData")) dict3 pages3 (mkTableDef (txt "test/t") 21 5) (txt "test") (txt "t") (key_slots [c_id] [c_v]) 40 [page_own; page_other 40] [(row_t1, true); (row_t3, true)]
  /\ (forall p, In p (firsts [page_own; page_other 40]) -> index_of p <> 40 -> eligible (is_deleted (txt "PrintData")) p = false)
  /\ front_key dict3 21.
Proof.
  intro rt. change (is_deleted (txt "PrintData")) with false. set (ls := map slot_layout (key_slots [c_id] [c_v])).
  assert (T : tool_input rt false dict3 pages3 (mkTableDef (txt "test/t") 21 5) (txt "test") (txt "t") (key_slots [c_id] [c_v]) [] []).
  { destruct (C82_case rt) as [[H1 [H2 [H3 [H4 [H5 [H6 [H7 [H8 [H9 [H10 [H11 _]]]]]]]]]]] _]. repeat (split; [assumption|]). split; [constructor|]. exists []. split; [constructor|reflexivity]. }
  assert (K : clustered_id dict3 21 40) by (exists (mkIndexDef 21 40 (txt "PRIMARY") 1 3); split; [now left|]; split; [left; reflexivity|reflexivity]).
  assert (F : forall fs, In fs [stored_t1; stored_t3] -> Forall2 fits ls fs /\ Forall fine (map (irec 0 ls) [fs]) /\ zlen (blocks true 125 (map (irec 0 ls) [fs])) <= 16000).
  { intros fs [<-|[<-|[]]]; (split; [repeat (constructor; [vm_compute; reflexivity|]); constructor|]); (split; [apply fine_check; vm_compute; reflexivity|vm_compute; discriminate]). }
  assert (P : forall number id fs r p, p = built true number 17855 id (map (irec 0 ls) [fs]) -> In fs [stored_t1; stored_t3] -> row_encodes rt (key_slots [c_id] [c_v]) (values (users (key_slots [c_id] [c_v])) r) fs -> 0 <= number < 2 ^ 32 -> 0 <= id < 2 ^ 64 ->
    page_image p /\ page_number p = number /\ index_of p = id /\ eligible false p = true /\ page_holds rt false (key_slots [c_id] [c_v]) p [values (users (key_slots [c_id] [c_v])) r]).
  { intros number id fs r p Ep Hin Hr Hn Hi. destruct (F fs Hin) as [Hfit [Hf Hl]]. destruct (built_page true number 17855 id (map (irec 0 ls) [fs]) Hf Hl Hn ltac:(lia) Hi) as [[P1 _] [P2 [P3 [P4 [P5 [P6 _]]]]]]. rewrite <- Ep in P1, P2, P3, P4, P5, P6.
    split; [exact P1|]. split; [exact P2|]. split; [exact P4|]. split; [unfold eligible; rewrite P3, P5, P6; reflexivity|].
    assert (M : page_marks rt (key_slots [c_id] [c_v]) p [(r, false)]).
    { rewrite Ep. refine (marks_built rt (key_slots [c_id] [c_v]) number id [(false, fs)] [(r, false)] _ Hf Hl Hn Hi). constructor; [|constructor]. split; [exact Hfit|]. split; [exact Hr|reflexivity]. }
    destruct M as [c [os [A [B C]]]]. exists c, os. split; [exact A|]. split; [exact B|]. inversion C as [|o it os' its [X [_ Y]] C' E1 E2]; subst. inversion C'; subst. constructor; [split; assumption|constructor]. }
  assert (Q : forall id, 0 <= id < 2 ^ 64 -> owners_input rt false dict3 pages3 (mkTableDef (txt "test/t") 21 5) (txt "test") (txt "t") (key_slots [c_id] [c_v]) 40 [page_own; page_other id] [(row_t1, true); (row_t3, id =? 40)]
    /\ firsts [page_own; page_other id] = [page_own; page_other id] /\ index_of page_own = 40 /\ index_of (page_other id) = id).
  { intros id Hid. destruct (P 3 40 stored_t1 row_t1 page_own eq_refl) as [A1 [A2 [A3 [A4 A5]]]]; [now left|apply t1_encodes|lia|lia|]. destruct (P 4 id stored_t3 row_t3 (page_other id) eq_refl) as [B1 [B2 [B3 [B4 B5]]]]; [right; now left|apply t3_encodes|lia|lia|].
    assert (E : firsts [page_own; page_other id] = [page_own; page_other id]) by (cbn [firsts firsts_rev rev app existsb]; rewrite A2, B2; reflexivity).
    split; [|split; [exact E|split; [exact A3|exact B3]]]. split; [exact T|]. split; [exact K|]. split; [constructor; [exact A1|constructor; [exact B1|constructor]]|].
    rewrite E. cbn [filter]. rewrite A4, B4. exists [[(row_t1, true)]; [(row_t3, id =? 40)]]. split; [|reflexivity]. constructor; [|constructor; [|constructor]].
    - split; [exact A5|]. constructor; [|constructor]. cbn [snd]. rewrite A3. reflexivity.
    - split; [exact B5|]. constructor; [|constructor]. cbn [snd]. now rewrite B3. }
  destruct (Q 77 ltac:(lia)) as [Q1 _]. destruct (Q 40 ltac:(lia)) as [Q2 [Q3 [Q4 Q5]]]. split; [exact Q1|]. split; [right; now left|]. split; [reflexivity|]. split; [exact Q2|]. split.
  - intros p Hp N. rewrite Q3 in Hp. destruct Hp as [<-|[<-|[]]]; contradiction.
  - exact (proj2 (C82_case rt)).
Qed.
