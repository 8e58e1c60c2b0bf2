(** C115: instances with smaller pages. *)
From Coq Require Import String ZifyBool.
From Verif Require Import GoBase Utils Ibdata Redo Cmd SpecInno SpecText SpecSql SpecRecord SpecRow SpecPage SpecDict SpecTool SpecRedo SpecUndo SpecToolRedo SpecCmd SpecSmall
  PBase PWire PPage PFile PDict PBuild PMove PTool PropDict PropCmd PropFile PropTool.
Local Open Scope string_scope.
Local Open Scope list_scope.
Local Open Scope Z_scope.

Lemma app_same {A} (a b c d : list A) : a ++ b = c ++ d -> List.length a = List.length c -> a = c /\ b = d.
Proof.
  revert c. induction a as [|x a IH]; intros [|y c] E L; cbn in *; try discriminate; [now split|]. injection E as -> E. destruct (IH c E) as [-> ->]; [lia|]. now split.
Qed.
Lemma concat_length size (ps : list (list Z)) : Forall (fun p => zlen p = size) ps -> zlen (List.concat ps) = zlen ps * size.
Proof. induction 1 as [|p ps H _ IH]; [reflexivity|]. cbn [List.concat]. unfold zlen in *. rewrite app_length. cbn [List.length]. lia. Qed.
Lemma firstn_forall {A} (P : A -> Prop) n l : Forall P l -> Forall P (firstn n l).
Proof. revert n. induction l as [|x l IH]; intros [|n] H; cbn [firstn]; [constructor|constructor|constructor|]. inversion H; subst. constructor; [assumption|now apply IH]. Qed.
Lemma skipn_forall {A} (P : A -> Prop) n l : Forall P l -> Forall P (skipn n l).
Proof. revert n. induction l as [|x l IH]; intros [|n] H; cbn [skipn]; [exact H|exact H|exact H|]. inversion H; subst. now apply IH. Qed.
(** A block is some pages. *)
Lemma block_pages size k (ps : list (list Z)) b bs : 0 < size -> Z.of_nat k * size = 16384 -> Forall (fun p => zlen p = size) ps -> zlen b = 16384 -> b ++ bs = List.concat ps ->
  (k <= List.length ps)%nat /\ b = List.concat (firstn k ps) /\ bs = List.concat (skipn k ps).
Proof.
  intros Hs Hk Hp Hb E. pose proof (f_equal (@zlen Z) E) as L. rewrite (concat_length size ps Hp) in L. unfold zlen in *. rewrite app_length in L.
  assert (Hl : (k <= List.length ps)%nat) by nia. split; [exact Hl|].
  rewrite <- (firstn_skipn k ps), concat_app in E. apply app_same in E; [exact E|].
  assert (X : zlen (List.concat (firstn k ps)) = zlen (firstn k ps) * size) by (apply concat_length; now apply firstn_forall). unfold zlen in X. rewrite firstn_length, Nat.min_l in X by exact Hl. lia.
Qed.

Lemma field_first p q off k : 0 <= off -> off + Z.of_nat k <= zlen p -> field (p ++ q) off k = field p off k.
Proof.
  intros H1 H2. unfold field, zlen in *. f_equal. rewrite skipn_app, firstn_app. replace (k - List.length (skipn (Z.to_nat off) p))%nat with 0%nat by (rewrite skipn_length; lia).
  cbn [firstn]. apply app_nil_r.
Qed.
(** Each block begins with a page. *)
Lemma first_kept b : forall l : list (list Z), In b (firsts (b :: l)).
Proof.
  intro l. unfold firsts. cbn [rev]. induction (rev l) as [|x r IH]; [now left|]. cbn [app firsts_rev]. apply in_or_app. now left.
Qed.
Lemma block_starts size k (blocks : list (list Z)) : 0 < size -> Z.of_nat k * size = 16384 -> Forall (fun b => zlen b = 16384) blocks ->
  forall ps : list (list Z), Forall (fun p => zlen p = size) ps -> List.concat blocks = List.concat ps ->
  forall j b, nth_error blocks j = Some b -> exists p q, nth_error ps (k * j) = Some p /\ b = p ++ q.
Proof.
  intros Hs Hk HB. induction HB as [|b bs Hb _ IH]; intros ps Hp E j c Hj; [now destruct j|]. cbn [List.concat] in E.
  destruct (block_pages size k ps b (List.concat bs) Hs Hk Hp Hb E) as [Hl [E1 E2]]. assert (Hk0 : (0 < k)%nat) by nia. destruct j as [|j].
  - injection Hj as <-. rewrite Nat.mul_0_r. destruct ps as [|p ps]; [cbn in Hl; lia|]. destruct k as [|k]; [lia|]. cbn [firstn List.concat] in E1. now exists p, (List.concat (firstn k ps)).
  - destruct (IH (skipn k ps) (skipn_forall _ k ps Hp) E2 j c Hj) as [p [q [P1 P2]]].
    exists p, q. split; [|exact P2]. rewrite nth_skipn in P1. now replace (k * S j)%nat with (k + k * j)%nat by lia.
Qed.
Lemma dictionary_unfound fuel rt size k ps blocks : 128 <= size -> Z.of_nat k * size = 16384 -> Nat.Even k -> tablespace size ps -> same_file ps blocks ->
  ParseDictPage fuel rt (Some (map IoBytes blocks)) = ([], Ok ([], Some (txt "sys table's page have not found"))).
Proof.
  intros Hs Hk [h Hh] [HP [HN [p0 [rest [E0 H0]]]]] [HB HE].
  assert (Hp : Forall (fun p => zlen p = size) ps) by (revert HP; apply Forall_impl; tauto).
  assert (HI : Forall page_image blocks).
  { assert (A : Forall (fun b => 0 <= b < 256) (List.concat blocks)).
    { rewrite HE. clear - HP. induction HP as [|p ps [_ H] _ IH]; [constructor|]. cbn [List.concat]. apply Forall_app. now split. }
    clear - HB A. induction HB as [|b bs Hb _ IH]; [constructor|]. cbn [List.concat] in A. apply Forall_app in A as [A1 A2]. constructor; [now split|now apply IH]. }
  assert (Hs0 : 0 < size) by lia.
  assert (HS : forall j b, nth_error blocks j = Some b -> exists p q, nth_error ps (k * j) = Some p /\ b = p ++ q /\ zlen p = size).
  { intros j b Hj. destruct (block_starts size k blocks Hs0 Hk HB ps Hp HE j b Hj) as [p [q [P1 P2]]]. exists p, q. split; [exact P1|]. split; [exact P2|]. rewrite Forall_forall in Hp. apply Hp. exact (nth_error_In _ _ P1). }
  assert (HNB : forall j b, nth_error blocks j = Some b -> page_number b = Z.of_nat (k * j) \/ page_number b = 0).
  { intros j b Hj. destruct (HS j b Hj) as [p [q [P1 [-> P3]]]]. unfold page_number. rewrite field_first by lia. exact (HN _ _ P1). }
  assert (H7 : find (fun p => page_number p =? 7) (firsts blocks) = None).
  { destruct (find _ (firsts blocks)) as [b|] eqn:F; [|reflexivity]. exfalso. apply find_some in F as [Hi F]. apply firsts_incl in Hi. apply In_nth_error in Hi as [j Hj]. destruct (HNB j b Hj) as [X|X]; [|lia].
    assert (k * j = 7)%nat by lia. subst k. assert (2 * (h * j) = 7)%nat by lia. lia. }
  destruct (dict_run fuel rt blocks HI) as [D [-> HD]]. change (txt "sys table's page have not found") with err_tables. apply dict_missing. rewrite HD. apply tree_none.
  intros b Hb Hr. unfold roots0 in Hr. rewrite H7 in Hr. assert (Z0 : page_number b = 0) by (unfold is_root in Hr; cbn [existsb] in Hr; lia).
  (* the first block has number 0, so it is the only one kept *)
  destruct blocks as [|b0 bs]; [contradiction|]. destruct (HS 0%nat b0 eq_refl) as [p [q [P1 [-> P3]]]]. rewrite Nat.mul_0_r, E0 in P1. injection P1 as <-.
  assert (N0 : page_number (p0 ++ q) = 0).
  { destruct (HNB 0%nat (p0 ++ q) eq_refl) as [X|X]; rewrite Nat.mul_0_r in X || idtac; [exact X|exact X]. }
  assert (Eb : b = p0 ++ q).
  { pose proof (numbers_distinct (rev ((p0 ++ q) :: bs))) as ND. fold (firsts ((p0 ++ q) :: bs)) in ND.
    assert (I0 : In (p0 ++ q) (firsts ((p0 ++ q) :: bs))) by apply first_kept.
    clear - ND I0 Hb Z0 N0. induction (firsts ((p0 ++ q) :: bs)) as [|x l IH]; [contradiction|]. cbn [map] in ND. inversion ND as [|? ? Hx ND']; subst.
    destruct Hb as [->|Hb]; destruct I0 as [->|I0]; [reflexivity| | |now apply IH]; exfalso; apply Hx; [replace (page_number b) with (page_number (p0 ++ q)) by congruence|replace (page_number (p0 ++ q)) with (page_number b) by congruence]; now apply in_map. }
  rewrite Eb. unfold index_of. rewrite field_first by lia. unfold index_of in H0. lia.
Qed.
(** Full statement: the rows and updates of an instance with any page size are
    recovered.  Proved for pages of 16384 bytes (C82): then the blocks are the
    pages.  Missing (false): other sizes. *)
Theorem C115_default_partial : forall fuel rt files op sys tfile d sys_pages t db tb ss pages rows sys_blocks blocks,
  tool_input rt (is_deleted op) d sys_pages t db tb ss pages rows -> front_key d (td_id t) ->
  same_file sys_pages sys_blocks -> same_file pages blocks -> Forall page_image sys_pages ->
  files sys = Some (map IoBytes sys_blocks) -> files tfile = Some (map IoBytes blocks) -> (Z.to_nat 16384 < fuel)%nat ->
  exists lines, FromDataFile fuel rt files op sys tfile db tb = (lines, Ok tt)
    /\ Forall2 (fun r line => read_replace line = Some (db, tb, values (columns_of d (td_id t)) r)) rows lines.
Proof.
  assert (K : forall ps bs : list (list Z), Forall (fun p => zlen p = 16384) ps -> same_file ps bs -> bs = ps).
  { intros ps bs Hp [HB E]. revert ps Hp E. induction HB as [|b bs Hb _ IH]; intros ps Hp E; cbn [List.concat] in E.
    - destruct Hp as [|p ps Hp _]; [reflexivity|]. cbn [List.concat] in E. apply (f_equal (@zlen Z)) in E. unfold zlen in *. rewrite app_length in E. cbn in E. lia.
    - destruct Hp as [|p ps Hp HPS]; cbn [List.concat] in E; [apply (f_equal (@zlen Z)) in E; unfold zlen in *; rewrite app_length in E; cbn in E; lia|].
      apply app_same in E as [-> E]; [|unfold zlen in *; lia]. f_equal. now apply IH. }
  intros fuel rt files op sys tfile d sys_pages t db tb ss pages rows sys_blocks blocks HI Hk HS HB HP F1 F2 Hfuel.
  assert (E1 : sys_blocks = sys_pages) by (apply K; [|exact HS]; revert HP; apply Forall_impl; intros p Hp; apply Hp).
  assert (E2 : blocks = pages).
  { apply K; [|exact HB]. destruct HI as [_ [_ [_ [_ [_ [_ [_ [_ [_ [_ [_ [Him _]]]]]]]]]]]]. revert Him. apply Forall_impl. intros p Hp. apply Hp. }
  subst sys_blocks blocks. now apply (C82_statements_partial fuel rt files op sys tfile d sys_pages t db tb ss pages rows).
Qed.
Print Assumptions C115_default_partial.
(** With pages of 4096 or 8192 bytes page 7, that of the dictionary, is at the
    beginning of no block: whatever the instance holds, nothing is recovered.
    The data command says that SYS_TABLES was not found; the redo command says
    nothing at all. *)
Theorem C115_data_refuted : forall fuel rt files op sys tfile db tb size ps blocks,
  In size [4096; 8192] -> tablespace size ps -> same_file ps blocks -> files sys = Some (map IoBytes blocks) ->
  FromDataFile fuel rt files op sys tfile db tb = ([txt "sys table's page have not found"], Ok tt).
Proof.
  intros fuel rt files op sys tfile db tb size ps blocks Hs HT HF F1. unfold FromDataFile. rewrite F1.
  assert (X : exists k, Z.of_nat k * size = 16384 /\ Nat.Even k /\ 128 <= size) by (destruct Hs as [<-|[<-|[]]]; [exists 4%nat|exists 2%nat]; (split; [lia|]; split; [|lia]); [now exists 2%nat|now exists 1%nat]).
  destruct X as [k [K1 [K2 K3]]]. rewrite (dictionary_unfound fuel rt size k ps blocks K3 K1 K2 HT HF). reflexivity.
Qed.
Print Assumptions C115_data_refuted.
Theorem C115_redo_refuted : forall fuel rt files sys opt want_db want_tb spare size ps blocks,
  In size [4096; 8192] -> tablespace size ps -> same_file ps blocks -> files sys = Some (map IoBytes blocks) ->
  FromRedoFile fuel rt files sys opt want_db want_tb spare = ([], Ok tt).
Proof.
  intros fuel rt files sys opt want_db want_tb spare size ps blocks Hs HT HF F1. unfold FromRedoFile. rewrite F1.
  assert (X : exists k, Z.of_nat k * size = 16384 /\ Nat.Even k /\ 128 <= size) by (destruct Hs as [<-|[<-|[]]]; [exists 4%nat|exists 2%nat]; (split; [lia|]; split; [|lia]); [now exists 2%nat|now exists 1%nat]).
  destruct X as [k [K1 [K2 K3]]]. rewrite (dictionary_unfound fuel rt size k ps blocks K3 K1 K2 HT HF). reflexivity.
Qed.
Print Assumptions C115_redo_refuted.
(** Twelve pages of 8192 bytes with a dictionary header on page 7, one of them
    not yet written. *)
Definition page_8k (n : Z) : list Z := be 4 0 ++ be 4 n ++ repeat 0 58 ++ be 4 0xFFFFFFFF ++ repeat 0 (Z.to_nat (8192 - 70)).
Definition pages_8k : list (list Z) := map page_8k [0; 1; 2; 3; 4; 5; 6; 7; 8; 9; 10; 0].
Definition blocks_8k : list (list Z) := map (fun n => page_8k n ++ page_8k (if n =? 10 then 0 else n + 1)) [0; 2; 4; 6; 8; 10].
Lemma length_8k n : zlen (page_8k n) = 8192.
Proof. unfold page_8k, zlen. rewrite !app_length, !repeat_length, !be_length. lia. Qed.
Example C115_case : tablespace 8192 pages_8k /\ same_file pages_8k blocks_8k.
Proof.
  assert (Hb : forall n, Forall (fun b => 0 <= b < 256) (repeat 0 n)) by (intro m; apply Forall_forall; intros x Hx; apply repeat_spec in Hx; lia).
  assert (HB : forall n, zlen (page_8k n) = 8192 /\ Forall (fun b => 0 <= b < 256) (page_8k n)) by (intro n; split; [apply length_8k|unfold page_8k; repeat first [apply be_bytes | apply Hb | apply Forall_app; split]]).
  assert (HN : forall n, 0 <= n < 2 ^ 32 -> page_number (page_8k n) = n) by (intros n Hn; unfold page_number, page_8k; exact (field_there (be 4 0) 4 n _ Hn)).
  split; [split; [|split]|split].
  - unfold pages_8k. rewrite Forall_map. apply Forall_forall. intros n _. apply HB.
  - intros i p Hi. unfold pages_8k in Hi. rewrite nth_error_map in Hi. do 12 (destruct i as [|i]; [cbn [nth_error option_map] in Hi; injection Hi as <-; rewrite HN by lia; cbn; lia|]). now destruct i.
  - exists (page_8k 0), (map page_8k [1; 2; 3; 4; 5; 6; 7; 8; 9; 10; 0]). split; [reflexivity|]. vm_compute. reflexivity.
  - unfold blocks_8k. rewrite Forall_map. apply Forall_forall. intros n _. pose proof (length_8k n) as L1. pose proof (length_8k (if n =? 10 then 0 else n + 1)) as L2. unfold zlen in *. rewrite app_length. lia.
  - unfold blocks_8k, pages_8k. set (f := page_8k). clearbody f. cbn [map List.concat Z.eqb Pos.eqb]. rewrite <- !app_assoc. reflexivity.
Qed.
Example C115_default_case rt : tool_input rt (is_deleted (txt "PrintData")) dict3 pages3 (mkTableDef (txt "test/t") 21 5) (txt "test") (txt "t") (key_slots [c_id] [c_v]) [page_t] [row_t1; row_t2]
  /\ front_key dict3 21 /\ same_file [page_t] [page_t] /\ same_file pages3 pages3 /\ Forall page_image pages3.
Proof.
  destruct (C82_case rt) as [H1 H2]. assert (HP : Forall page_image pages3) by (destruct pages3_stores; assumption). assert (HT : Forall page_image [page_t]) by (destruct (page_t_holds rt); assumption).
  assert (Q : forall l, Forall page_image l -> same_file l l) by (intros l H; split; [revert H; apply Forall_impl; intros p Hp; apply Hp|reflexivity]).
  repeat (split; [first [assumption|now apply Q]|]). exact HP.
Qed.
