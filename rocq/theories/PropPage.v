(** Properties C40-C44: reading the records of a page.  Theorems only; proofs
    in PPage.v.  Pages are laid out by SpecPage.v and SpecRecord.v. *)
From Coq Require Import ZifyBool Relations.
From Verif Require Import GoBase Utils Ibdata SpecInno SpecText SpecSql SpecRecord SpecRow SpecPage PBase PWire PValue PText PRec PPage PropValue PropRec.
Local Open Scope list_scope.

(** A page with two records for the examples, at 126 and 152; the links of
    infimum (at 99) and of the two records are parameters. *)
Definition two_row (n : Z) (v : string) : list stored :=
  [ FBytes [128; 0; 0; n]; FBytes (repeat 1 6); FBytes (repeat 2 7); FBytes (txt v) ].
Definition two_lays : list layout := [ fixed 4; fixed 6; fixed 7; varying false false ].
Definition two_page (inf a b : Z) : list Z :=
  repeat 0 42 ++ [128] ++ repeat 0 54 ++ be 2 inf ++ repeat 0 21
  ++ [3; 0; 0; 0] ++ be 2 a ++ body (two_row 1 "abc") ++ [2; 0; 0; 0] ++ be 2 b ++ body (two_row 2 "de")
  ++ repeat 0 (Z.to_nat 16213).
Definition two_table : Table := mkTable (txt "d") (txt "t") stale_cols [] 0 0.
Lemma two_page_format inf a b : in_format true (two_page inf a b).
Proof.
  assert (Hb : forall n, Forall (fun b => 0 <= b < 256) (repeat 0 n)) by (intro n; apply Forall_forall; intros x Hx; apply repeat_spec in Hx; lia).
  split; [split|].
  - change (@zlen) with (@len). unfold two_page. rewrite !len_app, !len_repeat, !len_be. reflexivity.
  - unfold two_page. repeat first [apply be_bytes | apply Hb | apply bytes_check; reflexivity | apply Forall_app; split].
  - cbv. discriminate.
Qed.
Lemma two_page_at inf a b : stored_at true (two_page inf a b) 126 two_lays (two_row 1 "abc")
  /\ stored_at true (two_page inf a b) 152 two_lays (two_row 2 "de").
Proof.
  split.
  - exists (repeat 0 42 ++ [128] ++ repeat 0 54 ++ be 2 inf ++ repeat 0 21), ([0; 0; 0] ++ be 2 a),
      ([2; 0; 0; 0] ++ be 2 b ++ body (two_row 2 "de") ++ repeat 0 (Z.to_nat 16213)).
    split; [unfold two_page; rewrite <- !app_assoc; reflexivity|].
    split; [reflexivity || (cbv; discriminate)|]. split; [reflexivity|]. split; [reflexivity|]. repeat constructor.
  - exists (repeat 0 42 ++ [128] ++ repeat 0 54 ++ be 2 inf ++ repeat 0 21 ++ [3; 0; 0; 0] ++ be 2 a ++ body (two_row 1 "abc")), ([0; 0; 0] ++ be 2 b),
      (repeat 0 (Z.to_nat 16213)).
    split; [unfold two_page; rewrite <- !app_assoc; reflexivity|].
    split; [reflexivity || (cbv; discriminate)|]. split; [reflexivity|]. split; [reflexivity|]. repeat constructor.
Qed.
Lemma two_int rt n r : 0 <= n < 10 -> ParseData rt 6 3 ([128; 0; 0; n] ++ r) 4 4 false false = ([], Ok (VInt n, false)).
Proof.
  intro H. unfold ParseData. rewrite (slice_to_app [128; 0; 0; n] r 4) by reflexivity.
  assert (n = 0 \/ n = 1 \/ n = 2 \/ n = 3 \/ n = 4 \/ n = 5 \/ n = 6 \/ n = 7 \/ n = 8 \/ n = 9) as Hn by lia.
  repeat (destruct Hn as [->|Hn]; [reflexivity|]). subst. reflexivity.
Qed.
Definition two_out (n : Z) (v : string) : list Column :=
  map (fun cv => set_value (fst cv) (snd cv) false) (combine stale_cols [VInt n; VNil; VNil; VStr (txt v)]).
Lemma two_row_of rt after n v : 0 <= n < 10 -> row_of rt after stale_cols two_lays (two_row n v) (two_out n v).
Proof.
  intro Hn. unfold stale_cols, two_lays, two_row, two_out.
  eapply row_quiet; [discriminate|apply two_int; exact Hn|].
  do 2 (eapply row_quiet; [discriminate|reflexivity|]).
  eapply row_quiet; [discriminate|apply C19_text_exact; right; right; left; reflexivity|]. constructor.
Qed.
Lemma two_describes : Forall2 describes stale_cols two_lays.
Proof. solve_describes. Qed.
Lemma two_known tm : mget tm 7 = Some two_table -> known tm stale_cols two_lays.
Proof.
  intro H. exists (dcol "id" 6 3 4 false), two_table. split; [reflexivity|]. split; [exact H|].
  split; [exact two_describes|reflexivity].
Qed.

(** C40: reading a page whose records form a list from infimum to supremum
    gives exactly the rows of the linked records, in list order, each as
    decoded on its own; both formats, any placement of the records. *)
Theorem C40_live : forall rt tm compact page cols ls offs rows lines fuel free,
  in_format compact page -> (compact = true -> known tm cols ls) ->
  Forall2 describes cols ls -> (3 <= List.length cols)%nat ->
  chain compact page (infimum compact) offs (supremum compact) ->
  page_rows rt compact page cols ls offs rows lines ->
  (List.length offs < fuel)%nat ->
  exists shown cols', parsePage fuel rt tm page cols false free = (lines, Ok (shown, cols'))
    /\ Forall2 (Forall2 as_decoded) rows shown.
Proof.
  intros rt tm compact page cols ls offs rows lines fuel free Hf Hk HD H3 Hc HR Hfuel.
  destruct (rows_decoded rt tm compact page cols ls Hf Hk HD H3 offs rows lines HR cols (moved_refls cols)) as [shown [cols' [D1 [D2 _]]]].
  exists shown, cols'. split; [|exact D2].
  apply (page_live rt tm page compact offs shown lines cols cols' fuel free Hf Hc (rows_origins _ _ _ _ _ _ _ _ HR) D1 Hfuel).
Qed.
Print Assumptions C40_live.
(** The first record of the list lies behind the second one. *)
Example C40_case : let page := two_page 53 65522 65510 in
  in_format true page /\ chain true page (infimum true) [152; 126] (supremum true)
  /\ Forall2 describes stale_cols two_lays /\ known [(7, two_table)] stale_cols two_lays
  /\ forall rt, page_rows rt true page stale_cols two_lays [152; 126] [two_out 2 "de"; two_out 1 "abc"] [].
Proof.
  cbv zeta. split; [apply two_page_format|]. split; [|split; [exact two_describes|split; [apply two_known; reflexivity|]]].
  - apply chain_step; [reflexivity|]. apply chain_step; [reflexivity|]. apply chain_end. reflexivity.
  - intro rt. destruct (two_page_at 53 65522 65510) as [HA HB].
    eapply rows_quiet; [unfold user_origin; lia|exact HB|apply two_row_of; lia|reflexivity|].
    eapply rows_quiet; [unfold user_origin; lia|exact HA|apply two_row_of; lia|reflexivity|]. constructor.
Qed.

(** C41: recovery gives exactly the rows of the free list, which starts at the
    place recovery is told (PAGE_FREE); the live list does not matter. *)
Theorem C41_free : forall rt tm compact page cols ls free offs rows lines fuel,
  in_format compact page -> (compact = true -> known tm cols ls) ->
  Forall2 describes cols ls -> (3 <= List.length cols)%nat ->
  free_chain compact page (free :: offs) ->
  page_rows rt compact page cols ls (free :: offs) rows lines ->
  (List.length (free :: offs) < fuel)%nat ->
  exists shown cols', parsePage fuel rt tm page cols true free = (lines, Ok (shown, cols'))
    /\ Forall2 (Forall2 as_decoded) rows shown.
Proof.
  intros rt tm compact page cols ls free offs rows lines fuel Hf Hk HD H3 Hc HR Hfuel.
  destruct (rows_decoded rt tm compact page cols ls Hf Hk HD H3 (free :: offs) rows lines HR cols (moved_refls cols)) as [shown [cols' [D1 [D2 _]]]].
  exists shown, cols'. split; [|exact D2].
  apply (page_free rt tm page compact free offs shown lines cols cols' fuel Hf Hc (rows_origins _ _ _ _ _ _ _ _ HR) D1 Hfuel).
Qed.
Print Assumptions C41_free.
(** No live records; both records freed, the later one first. *)
Example C41_case : let page := two_page 13 0 65510 in
  in_format true page /\ chain true page (infimum true) [] (supremum true)
  /\ free_chain true page [152; 126]
  /\ forall rt, page_rows rt true page stale_cols two_lays [152; 126] [two_out 2 "de"; two_out 1 "abc"] [].
Proof.
  cbv zeta. split; [apply two_page_format|]. split; [apply chain_end; reflexivity|]. split.
  - apply free_step; [discriminate|reflexivity|]. apply free_last. reflexivity.
  - intro rt. destruct (two_page_at 13 0 65510) as [HA HB].
    eapply rows_quiet; [unfold user_origin; lia|exact HB|apply two_row_of; lia|reflexivity|].
    eapply rows_quiet; [unfold user_origin; lia|exact HA|apply two_row_of; lia|reflexivity|]. constructor.
Qed.

(** C42: false; two records that link to each other are read for ever. *)
Theorem C42_ends_refuted : exists page, page_image page /\
  forall rt tm, mget tm 7 = Some two_table ->
  forall fuel, snd (parsePage fuel rt tm page stale_cols false 0) = NoFuel.
Proof.
  exists (two_page 27 26 65510). split; [exact (proj1 (two_page_format 27 26 65510))|].
  intros rt tm Ht fuel. pose proof (two_page_format 27 26 65510) as Hf.
  rewrite (parsePage_start fuel rt tm _ stale_cols true) by exact Hf. cbv iota.
  rewrite (start_linked true _ 126) by (cbn [infimum]; (lia || reflexivity)).
  apply (exhausted_alive rt tm _ _ stale_cols (proj1 Hf) _ _ _ (moved_refls _)).
  destruct (two_page_at 27 26 65510) as [HA HB].
  assert (H1 : walk_step rt tm (two_page 27 26 65510) (supremum true) stale_cols 126 = Some 152).
  { unfold walk_step. change ((126 <? 16384 - 6) && negb (126 =? supremum true)) with true. cbv iota.
    erewrite (record_any rt tm true); [|exact Hf|intros _; now apply two_known|exact two_describes|cbn; lia|exact HA|apply two_row_of; lia].
    cbn [snd]. rewrite (next_linked true _ 126 152 Hf) by (lia || reflexivity). reflexivity. }
  assert (H2 : walk_step rt tm (two_page 27 26 65510) (supremum true) stale_cols 152 = Some 126).
  { unfold walk_step. change ((152 <? 16384 - 6) && negb (152 =? supremum true)) with true. cbv iota.
    erewrite (record_any rt tm true); [|exact Hf|intros _; now apply two_known|exact two_describes|cbn; lia|exact HB|apply two_row_of; lia].
    cbn [snd]. rewrite (next_linked true _ 152 126 Hf) by (lia || reflexivity). reflexivity. }
  assert (HH : forall n, alive (walk_step rt tm (two_page 27 26 65510) (supremum true) stale_cols) n 126
             /\ alive (walk_step rt tm (two_page 27 26 65510) (supremum true) stale_cols) n 152).
  { induction n as [|n [I1 I2]]; [split; exact I|]. cbn [alive]. rewrite H1, H2. tauto. }
  apply HH.
Qed.
Print Assumptions C42_ends_refuted.
(** Exactly: where every place met is a record of the table, the reading of a
    page ends if and only if following the links one comes to a place that ends
    the list (the supremum, a place past the records, or a record that links
    to none).  So every page on which one does not is read for ever. *)
Theorem C42_exact_refuted : forall rt tm compact page cols ls rec free,
  in_format compact page -> (compact = true -> known tm cols ls) ->
  Forall2 describes cols ls -> (3 <= List.length cols)%nat ->
  let start := if rec : bool then free else if compact then 99 + field page 97 2 else field page 99 2 in
  (forall o, reachable compact page start o -> 16378 <= o \/ o = supremum compact \/
     exists fs row, user_origin o /\ stored_at compact page o ls fs
       /\ row_of rt (skipn (Z.to_nat (o + zlen (body fs))) page) cols ls fs row) ->
  ((exists fuel, snd (parsePage fuel rt tm page cols rec free) <> NoFuel)
   <-> exists o, reachable compact page start o
         /\ (16378 <= o \/ o = supremum compact \/ forall o', ~ next_rec compact page o o')).
Proof.
  intros rt tm compact page cols ls rec free Hf Hk HD H3 start Hall. split.
  - intros [fuel H]. rewrite (parsePage_start _ rt tm page cols compact) in H by exact Hf. fold start in H.
    apply (dead_ends rt tm compact page cols ls Hf Hk HD H3 fuel start Hall).
    intro Ha. apply H. now apply (exhausted_alive rt tm page _ cols (format_image _ _ Hf) _ _ _ (moved_refls cols)).
  - intros [o [H1 H2]]. destruct (ends_dead rt tm compact page cols start o Hf H1 H2) as [n Hn]. exists n.
    rewrite (parsePage_start _ rt tm page cols compact) by exact Hf. fold start. intro H. apply Hn.
    now apply (exhausted_alive rt tm page _ cols (format_image _ _ Hf) _ _ _ (moved_refls cols)) in H.
Qed.
Print Assumptions C42_exact_refuted.
(** Full statement: all pages.  Proved: all pages whose links form no cycle,
    whatever else they contain. *)
Theorem C42_ends_partial : forall rt tm compact page cols rec free,
  in_format compact page -> acyclic compact page ->
  snd (parsePage (Z.to_nat 16384) rt tm page cols rec free) <> NoFuel.
Proof.
  intros rt tm compact page cols rec free Hf Hac. rewrite (parsePage_start _ rt tm page cols compact) by exact Hf.
  now apply acyclic_ends with compact.
Qed.
Print Assumptions C42_ends_partial.
(** A page of which every link leads further down the page has no cycle; such
    is the page of zeros (all links end the list). *)
Lemma rising_acyclic compact page : (forall o o', next_rec compact page o o' -> o < o') -> acyclic compact page.
Proof.
  intros H o Hc. assert (Ht : forall a b, clos_trans Z (next_rec compact page) a b -> a < b).
  { induction 1 as [a b Hab|a b c _ IH1 _ IH2]; [now apply H|lia]. }
  pose proof (Ht o o Hc). lia.
Qed.
Lemma field_zeros p k n : field (repeat 0 n) p k = 0.
Proof.
  unfold field. assert (E : forall m, Forall (fun b => b = 0) (firstn k (skipn m (repeat 0 n)))).
  { intro m. apply Forall_forall. intros x Hx. 
    assert (Hin : In x (repeat 0 n)).
    { rewrite <- (firstn_skipn m (repeat 0 n)). apply in_or_app. right. rewrite <- (firstn_skipn k (skipn m _)). apply in_or_app. now left. }
    now apply repeat_spec in Hin. }
  specialize (E (Z.to_nat p)). clear - E. unfold be_val.
  assert (G : forall l a, Forall (fun b => b = 0) l -> a = 0 -> fold_left (fun a b => a * 256 + b) l a = 0).
  { induction l as [|x l IH]; intros a HF Ha; [exact Ha|]. inversion HF; subst. cbn. apply IH; [assumption|reflexivity]. }
  now apply G.
Qed.
Example C42_case : exists page, in_format false page /\ acyclic false page.
Proof.
  exists (repeat 0 (Z.to_nat 16384)). split; [split; [split|]|].
  - unfold zlen. rewrite repeat_length. reflexivity.
  - apply Forall_forall. intros x Hx. apply repeat_spec in Hx. lia.
  - rewrite nth_repeat. lia.
  - apply rising_acyclic. intros o o' [H _]. rewrite field_zeros in H. contradiction.
Qed.

(** C43: a page not read to its end after 16384 records never is; no page
    gives more rows; and once the reading has ended more fuel changes nothing
    (so that fuel only says how long the model looks). *)
Theorem C43_bounded : forall rt tm page cols rec free, page_image page ->
  (snd (parsePage (Z.to_nat 16384) rt tm page cols rec free) = NoFuel ->
   forall fuel, snd (parsePage fuel rt tm page cols rec free) = NoFuel)
  /\ (forall fuel out rows cols', parsePage fuel rt tm page cols rec free = (out, Ok (rows, cols')) -> zlen rows <= 16384).
Proof.
  intros rt tm page cols rec free Hi. destruct (image_format page Hi) as [compact Hf]. split.
  - intros H fuel. rewrite (parsePage_start (Z.to_nat 16384) rt tm page cols compact) in H by exact Hf.
    rewrite (parsePage_start fuel rt tm page cols compact) by exact Hf. apply walk_finite; assumption.
  - intros fuel out rows cols' H. rewrite (parsePage_start _ rt tm page cols compact) in H by exact Hf.
    destruct (walk_rows rt tm page _ cols Hi _ _ _ _ _ _ (moved_refls cols) H) as [k [Hl Hk]].
    pose proof (life_bound _ 16378 k _ (fun y => step_range rt tm page _ cols y) Hl) as Hb. change (@zlen) with (@len). unfold len. lia.
Qed.
Print Assumptions C43_bounded.
Theorem C43_fuel : forall fuel fuel' rt tm page cols rec free,
  snd (parsePage fuel rt tm page cols rec free) <> NoFuel -> (fuel <= fuel')%nat ->
  parsePage fuel' rt tm page cols rec free = parsePage fuel rt tm page cols rec free.
Proof. intros fuel fuel' rt tm page cols rec free. apply page_mono. Qed.
Print Assumptions C43_fuel.
(** Both halves apply: a page that never ends, and one that gives two rows. *)
Example C43_case : forall rt tm, mget tm 7 = Some two_table ->
  (exists page, page_image page /\ snd (parsePage (Z.to_nat 16384) rt tm page stale_cols false 0) = NoFuel)
  /\ (exists page rows cs, page_image page /\ parsePage 3 rt tm page stale_cols false 0 = ([], Ok (rows, cs)) /\ zlen rows = 2).
Proof.
  intros rt tm Ht. split.
  - destruct C42_ends_refuted as [page [Hi H]]. exists page. split; [exact Hi|]. now apply H.
  - destruct C40_case as [Hf [Hc [HD [_ HR]]]].
    destruct (C40_live rt tm true _ stale_cols two_lays _ _ _ 3 0 Hf (fun _ => two_known tm Ht) HD ltac:(cbn; lia) Hc (HR rt) ltac:(cbn; lia)) as [shown [cs [E HF]]].
    exists (two_page 53 65522 65510), shown, cs. split; [exact (proj1 Hf)|]. split; [exact E|].
    apply forall2_length in HF. unfold zlen. now rewrite <- HF.
Qed.

(** C44: false; a record said to start 14 bytes before the end of the page
    makes the tool crash. *)
Theorem C44_crash_refuted : exists page, page_image page /\
  forall rt tm, mget tm 7 = Some two_table -> parsePage 1 rt tm page stale_cols false 0 = ([], Panic).
Proof.
  exists (two_page 16271 0 0). split; [exact (proj1 (two_page_format 16271 0 0))|]. intros rt tm Ht.
  rewrite (parsePage_start 1 rt tm _ stale_cols true) by apply two_page_format. cbv iota.
  assert (E : 99 + field (two_page 16271 0 0) 97 2 = 16370) by (vm_compute; reflexivity). rewrite E.
  cbn [parsePage_loop supremum]. change ((16370 <? 16384 - 6) && negb (16370 =? 112)) with true. cbv iota.
  assert (Hr : parsePage_record rt tm (two_page 16271 0 0) 16370 stale_cols = parsePage_record rt [(7, two_table)] (two_page 16271 0 0) 16370 stale_cols).
  { unfold parsePage_record. change (index stale_cols 0) with (Ok (dcol "id" 6 3 4 false)). cbn [bind].
    change (c_table (dcol "id" 6 3 4 false)) with 7. rewrite Ht. change (mget [(7, two_table)] 7) with (Some two_table). reflexivity. }
  rewrite Hr. vm_compute. reflexivity.
Qed.
Print Assumptions C44_crash_refuted.
(** Full statement: all page contents.  Proved: pages with arbitrary links
    (cycles included) and arbitrary contents, as long as each place that can
    be reached from the start is past the end, the supremum, or a record that
    lies in the page and whose values ParseData accepts. *)
Theorem C44_crash_partial : forall rt tm compact page cols ls rec free fuel,
  in_format compact page -> (compact = true -> known tm cols ls) ->
  Forall2 describes cols ls -> (3 <= List.length cols)%nat ->
  (forall o, reachable compact page (if rec : bool then free else if compact then 99 + field page 97 2 else field page 99 2) o ->
     16378 <= o \/ o = supremum compact \/
     exists fs row, user_origin o /\ stored_at compact page o ls fs
       /\ row_of rt (skipn (Z.to_nat (o + zlen (body fs))) page) cols ls fs row) ->
  snd (parsePage fuel rt tm page cols rec free) <> Panic.
Proof.
  intros rt tm compact page cols ls rec free fuel Hf Hk HD H3 Hall.
  rewrite (parsePage_start _ rt tm page cols compact) by exact Hf.
  apply (walk_safe rt tm compact page cols ls Hf Hk HD H3 fuel _ cols (moved_refls cols) Hall).
Qed.
Print Assumptions C44_crash_partial.
(** The page of two records linked in a cycle meets the hypotheses. *)
Example C44_case : let page := two_page 27 26 65510 in forall rt o, reachable true page (99 + field page 97 2) o ->
  exists fs row, user_origin o /\ stored_at true page o two_lays fs
    /\ row_of rt (skipn (Z.to_nat (o + zlen (body fs))) page) stale_cols two_lays fs row.
Proof.
  intros page rt o Hr. assert (Ho : o = 126 \/ o = 152).
  { apply clos_rt_rtn1 in Hr. induction Hr as [|y z Hyz _ IH]; [now left|].
    destruct Hyz as [_ [Hl Hz]]. destruct IH as [-> | ->]; [right|left].
    - apply (linked_fun true page 126); try assumption; [reflexivity|lia|lia].
    - apply (linked_fun true page 152); try assumption; [reflexivity|lia|lia]. }
  destruct (two_page_at 27 26 65510) as [HA HB].
  destruct Ho as [-> | ->]; eexists; eexists; (split; [unfold user_origin; lia|split; [eassumption|apply two_row_of; lia]]).
Qed.
