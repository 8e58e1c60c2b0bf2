(** Properties C39 and C44 for COMPACT records that run past the end of the
    page: exactly what becomes of them.  Theorems only; proofs in PCut.v. *)
From Coq Require Import ZifyBool.
From Verif Require Import GoBase Utils Ibdata SpecInno SpecText SpecSql SpecRecord SpecRow SpecPage PBase PWire PValue PText PRec PPage PCut PropValue PropRec PropPage.
Local Open Scope list_scope.

(** A record at [off] of which the page holds a part only: continued by the
    bytes [beyond], the page would hold all of it.  The column [f] starts in the
    page and ends behind it; the columns [fs] before it lie in the page, the
    columns [fs2] start behind it. *)
Definition cut_record (page : list Z) (off : Z) (ls : list layout) (fs : list stored) (f : stored) (fs2 : list stored) : Prop :=
  (exists beyond, compact_at (page ++ beyond) off ls (fs ++ f :: fs2))
  /\ zlen (body (fs ++ f :: fs2)) < 65536
  /\ off + zlen (body fs) <= 16384 < off + zlen (body fs) + zlen (content f).

(** C39: false of every record whose last column is cut by the end of the page:
    the column keeps the value it had, whatever that was (here: [c] as it was
    before, and every other column decoded from its own bytes). *)
Theorem C39_cut_refuted : forall rt tm page off cols c ls l fs f row,
  compact_page page -> cut_record page off (ls ++ [l]) fs f [] ->
  Forall2 describes (cols ++ [c]) (ls ++ [l]) -> known tm (cols ++ [c]) (ls ++ [l]) -> (3 <= List.length (cols ++ [c]))%nat ->
  row_of rt (skipn (Z.to_nat (off + zlen (body fs))) page) cols ls fs row ->
  parsePage_record rt tm page off (cols ++ [c]) = (remarks cols fs, Ok (Some (row ++ [c]))).
Proof.
  intros rt tm page off cols c ls l fs f row Hp [[beyond Hat] [Hb Hcut]] HD HK H3 HR.
  exact (record_cut_at rt tm page beyond off cols c [] ls l [] fs f [] row Hp Hat Hb Hcut HD HK H3 HR).
Qed.
Print Assumptions C39_cut_refuted.
(** In the list of a page, the value it keeps is that of the record before. *)
Theorem C39_cut_page_refuted : forall rt tm page cols c ls l offs o1 o rows lines fs f row fuel free,
  compact_page page -> Forall2 describes (cols ++ [c]) (ls ++ [l]) -> known tm (cols ++ [c]) (ls ++ [l]) -> (3 <= List.length (cols ++ [c]))%nat ->
  chain true page (infimum true) (offs ++ [o1]) o -> NoDup ((offs ++ [o1]) ++ [o]) -> linked true page o (supremum true) ->
  page_rows rt true page (cols ++ [c]) (ls ++ [l]) (offs ++ [o1]) rows lines ->
  user_origin o -> cut_record page o (ls ++ [l]) fs f [] ->
  row_of rt (skipn (Z.to_nat (o + zlen (body fs))) page) cols ls fs row ->
  (List.length offs + 3 <= fuel)%nat ->
  exists before prev this c' cols', parsePage fuel rt tm page (cols ++ [c]) false free
    = (lines ++ remarks cols fs, Ok (before ++ [prev ++ [c']; this ++ [c']], cols'))
    /\ Forall2 (Forall2 as_decoded) rows (before ++ [prev ++ [c']]) /\ Forall2 as_decoded row this.
Proof.
  intros rt tm page cols c ls l offs o1 o rows lines fs f row fuel free Hp HD HK H3 Hc Hnd Hl HR Ho [[beyond Hat] [Hb Hcut]] Hrow Hfuel.
  destruct (rows_decoded rt tm true page (cols ++ [c]) (ls ++ [l]) Hp (fun _ => HK) HD H3 _ rows lines HR _ (moved_refls _)) as [shown [colsE [D1 [D2 D3]]]].
  destruct (decoded_last rt tm page _ _ _ _ _ D1) as [before ->]; [now destruct offs|].
  destruct (moved_split _ _ _ _ D3) as (cols' & c' & cols2 & -> & Hm).
  assert (cols2 = []) as ->.
  { pose proof (forall2_length _ _ _ D3) as E. pose proof (forall2_length _ _ _ Hm). rewrite !app_length in E. cbn in E. destruct cols2; [reflexivity|cbn in E; lia]. }
  destruct (row_moved _ _ _ _ _ _ Hrow cols' Hm) as [this [T1 [T2 _]]].
  exists before, cols', this, c', (this ++ [c']). split; [|split; assumption].
  assert (Hrec : parsePage_record rt tm page o (cols' ++ [c']) = (remarks cols fs, Ok (Some (this ++ [c'])))).
  { rewrite (moved_remarks _ _ Hm).
    apply (record_cut_at rt tm page beyond o cols' c' [] ls l [] fs f [] this); try assumption.
    - exact (moved_describes _ _ _ D3 HD).
    - exact (moved_known tm _ _ _ D3 HK).
    - rewrite <- (forall2_length _ _ _ D3). exact H3. }
  replace fuel with (List.length (offs ++ [o1]) + (2 + (fuel - List.length offs - 3)))%nat by (rewrite app_length; cbn; lia).
  rewrite (page_to rt tm page true (offs ++ [o1]) o (before ++ [cols' ++ [c']]) lines (cols ++ [c]) (cols' ++ [c'])); try assumption.
  2:{ exact (rows_origins _ _ _ _ _ _ _ _ HR). }
  unfold user_origin in Ho. cbn [Nat.add]. rewrite (step_loop _ rt tm page _ o _ (remarks cols fs) (this ++ [c'])); [|lia|cbn; lia|exact Hrec].
  rewrite (next_linked true page o (supremum true)) by (try assumption; cbn; lia). rewrite wbind_lift. cbv iota.
  rewrite stop_loop; [|exact (proj1 Hp)|now right]. cbn. rewrite <- (app_assoc before), !app_nil_r. reflexivity.
Qed.
Print Assumptions C39_cut_page_refuted.

(** C44: false of every record of which some column starts behind the end of
    the page: the tool crashes. *)
Theorem C44_cut_refuted : forall rt tm page off cols c cols2 ls l ls2 fs f fs2 row,
  compact_page page -> cut_record page off (ls ++ l :: ls2) fs f fs2 -> fs2 <> [] ->
  Forall2 describes (cols ++ c :: cols2) (ls ++ l :: ls2) -> known tm (cols ++ c :: cols2) (ls ++ l :: ls2) ->
  (3 <= List.length (cols ++ c :: cols2))%nat ->
  row_of rt (skipn (Z.to_nat (off + zlen (body fs))) page) cols ls fs row ->
  parsePage_record rt tm page off (cols ++ c :: cols2) = (remarks cols fs, Panic).
Proof.
  intros rt tm page off cols c cols2 ls l ls2 fs f fs2 row Hp [[beyond Hat] [Hb Hcut]] Hne HD HK H3 HR.
  rewrite (record_cut_at rt tm page beyond off cols c cols2 ls l ls2 fs f fs2 row Hp Hat Hb Hcut HD HK H3 HR).
  destruct fs2; [contradiction|reflexivity].
Qed.
Print Assumptions C44_cut_refuted.
(** One such record anywhere in the list of a page makes reading the page crash. *)
Theorem C44_cut_page_refuted : forall rt tm page cols c cols2 ls l ls2 offs o rows lines fs f fs2 row fuel free,
  compact_page page -> Forall2 describes (cols ++ c :: cols2) (ls ++ l :: ls2) -> known tm (cols ++ c :: cols2) (ls ++ l :: ls2) ->
  (3 <= List.length (cols ++ c :: cols2))%nat ->
  chain true page (infimum true) offs o -> NoDup (offs ++ [o]) ->
  page_rows rt true page (cols ++ c :: cols2) (ls ++ l :: ls2) offs rows lines ->
  user_origin o -> cut_record page o (ls ++ l :: ls2) fs f fs2 -> fs2 <> [] ->
  row_of rt (skipn (Z.to_nat (o + zlen (body fs))) page) cols ls fs row ->
  (List.length offs < fuel)%nat ->
  parsePage fuel rt tm page (cols ++ c :: cols2) false free = (lines ++ remarks cols fs, Panic).
Proof.
  intros rt tm page cols c cols2 ls l ls2 offs o rows lines fs f fs2 row fuel free Hp HD HK H3 Hc Hnd HR Ho [[beyond Hat] [Hb Hcut]] Hne Hrow Hfuel.
  destruct (rows_decoded rt tm true page _ _ Hp (fun _ => HK) HD H3 _ rows lines HR _ (moved_refls _)) as [shown [colsE [D1 [D2 D3]]]].
  destruct (moved_split _ _ _ _ D3) as (cols' & c' & cols2' & -> & Hm).
  destruct (row_moved _ _ _ _ _ _ Hrow cols' Hm) as [this [T1 [T2 _]]].
  assert (Hrec : parsePage_record rt tm page o (cols' ++ c' :: cols2') = (remarks cols fs, Panic)).
  { rewrite (moved_remarks _ _ Hm).
    apply (C44_cut_refuted rt tm page o cols' c' cols2' ls l ls2 fs f fs2 this); try assumption.
    - split; [now exists beyond|]. split; assumption.
    - exact (moved_describes _ _ _ D3 HD).
    - exact (moved_known tm _ _ _ D3 HK).
    - rewrite <- (forall2_length _ _ _ D3). exact H3. }
  replace fuel with (List.length offs + (1 + (fuel - List.length offs - 1)))%nat by lia.
  rewrite (page_to rt tm page true offs o shown lines _ _ _ _ Hp Ho Hc Hnd (rows_origins _ _ _ _ _ _ _ _ HR) D1).
  unfold user_origin in Ho. cbn [Nat.add parsePage_loop].
  replace ((o <? 16384 - 6) && negb (o =? supremum true)) with true by (cbn; lia). rewrite Hrec. reflexivity.
Qed.
Print Assumptions C44_cut_page_refuted.

(** A page with a whole record at 126 and, behind it, one at [o] that is cut:
    its last column is said to have [n] bytes. *)
Definition cut_page (o n : Z) (link : Z) (held : list Z) : list Z :=
  (repeat 0 42 ++ [128] ++ repeat 0 54 ++ be 2 27 ++ repeat 0 21
   ++ [3; 0; 0; 0] ++ be 2 (o - 126) ++ body (two_row 1 "abc") ++ repeat 0 (Z.to_nat (o - 152)))
  ++ [n; 0; 0; 0] ++ be 2 link ++ held.
Lemma cut_page_format o n link held : 152 <= o -> 0 <= n < 256 -> forallb (fun b => (0 <=? b) && (b <? 256)) held = true -> zlen held = 16384 - o ->
  compact_page (cut_page o n link held).
Proof.
  intros Ho Hn Hh Hl.
  assert (Hb : forall k, Forall (fun b => 0 <= b < 256) (repeat 0 k)) by (intro k; apply Forall_forall; intros x Hx; apply repeat_spec in Hx; lia).
  split; [split|].
  - change (@zlen) with (@len) in *. unfold cut_page. rewrite !len_app, !len_repeat, !len_be, Hl. change (len (body (two_row 1 "abc"))) with 20. change (len [128]) with 1. change (len [3; 0; 0; 0]) with 4. change (len [n; 0; 0; 0]) with 4. lia.
  - unfold cut_page. repeat first [apply be_bytes | apply Hb | apply bytes_check; exact Hh | apply bytes_check; reflexivity | apply Forall_app; split].
    repeat constructor; lia.
  - cbv. discriminate.
Qed.
Lemma cut_page_first o n link held : stored_at true (cut_page o n link held) 126 two_lays (two_row 1 "abc").
Proof.
  exists (repeat 0 42 ++ [128] ++ repeat 0 54 ++ be 2 27 ++ repeat 0 21), ([0; 0; 0] ++ be 2 (o - 126)),
    (repeat 0 (Z.to_nat (o - 152)) ++ [n; 0; 0; 0] ++ be 2 link ++ held).
  split; [unfold cut_page; rewrite <- !app_assoc; reflexivity|].
  split; [reflexivity || (cbv; discriminate)|]. split; [reflexivity|]. split; [reflexivity|]. repeat constructor.
Qed.
Definition cut_text (n : nat) : stored := FBytes (repeat 120 n).
(** the last column of the second record is said to have 100 bytes, 12 are in
    the page *)
Definition cut_last : list Z := cut_page 16355 100 49293 (body (firstn 3 (two_row 2 "")) ++ repeat 120 12).
(** the second record starts 12 bytes before the end of the page; its third
    column is cut, the fourth lies behind the end *)
Definition cut_early : list Z := cut_page 16372 2 0 ([128; 0; 0; 2] ++ repeat 1 6 ++ repeat 2 2).
Example C39_cut_case : compact_page cut_last
  /\ chain true cut_last (infimum true) ([] ++ [126]) 16355 /\ linked true cut_last 16355 (supremum true)
  /\ (forall rt, page_rows rt true cut_last stale_cols two_lays [126] [two_out 1 "abc"] [])
  /\ user_origin 16355 /\ cut_record cut_last 16355 two_lays (firstn 3 (two_row 2 "")) (cut_text 100) []
  /\ (forall rt, row_of rt (skipn (Z.to_nat (16355 + zlen (body (firstn 3 (two_row 2 ""))))) cut_last)
        (firstn 3 stale_cols) (firstn 3 two_lays) (firstn 3 (two_row 2 "")) (firstn 3 (two_out 2 ""))).
Proof.
  split; [apply cut_page_format; vm_compute; (reflexivity || (split; [discriminate|reflexivity]) || discriminate)|].
  split; [apply chain_step; [vm_compute; reflexivity|apply chain_end; vm_compute; reflexivity]|].
  split; [vm_compute; reflexivity|].
  split; [intro rt; eapply rows_quiet; [unfold user_origin; lia|apply cut_page_first|apply two_row_of; lia|reflexivity|constructor]|].
  split; [unfold user_origin; lia|]. split.
  - split; [|split; [vm_compute; reflexivity|vm_compute; split; [discriminate|reflexivity]]].
    exists (repeat 120 88).
    exists (repeat 0 42 ++ [128] ++ repeat 0 54 ++ be 2 27 ++ repeat 0 21
      ++ [3; 0; 0; 0] ++ be 2 (16355 - 126) ++ body (two_row 1 "abc") ++ repeat 0 (Z.to_nat (16355 - 152))), ([0; 0; 0] ++ be 2 49293), [].
    split; [unfold cut_last, cut_page; rewrite <- !app_assoc; reflexivity|].
    split; [vm_compute; discriminate|]. split; [reflexivity|]. split; [vm_compute; reflexivity|]. repeat constructor.
  - intro rt. unfold stale_cols, two_lays, two_row, two_out. cbn [firstn map combine].
    eapply row_quiet; [discriminate|apply two_int; lia|].
    do 2 (eapply row_quiet; [discriminate|reflexivity|]). constructor.
Qed.
Example C44_cut_case : compact_page cut_early
  /\ chain true cut_early (infimum true) [126] 16372
  /\ (forall rt, page_rows rt true cut_early stale_cols two_lays [126] [two_out 1 "abc"] [])
  /\ user_origin 16372 /\ cut_record cut_early 16372 two_lays (firstn 2 (two_row 2 "")) (FBytes (repeat 2 7)) [cut_text 2]
  /\ (forall rt, row_of rt (skipn (Z.to_nat (16372 + zlen (body (firstn 2 (two_row 2 ""))))) cut_early)
        (firstn 2 stale_cols) (firstn 2 two_lays) (firstn 2 (two_row 2 "")) (firstn 2 (two_out 2 ""))).
Proof.
  split; [apply cut_page_format; vm_compute; (reflexivity || (split; [discriminate|reflexivity]) || discriminate)|].
  split; [apply chain_step; [vm_compute; reflexivity|apply chain_end; vm_compute; reflexivity]|].
  split; [intro rt; eapply rows_quiet; [unfold user_origin; lia|apply cut_page_first|apply two_row_of; lia|reflexivity|constructor]|].
  split; [unfold user_origin; lia|]. split.
  - split; [|split; [vm_compute; reflexivity|vm_compute; split; [discriminate|reflexivity]]].
    exists (repeat 2 5 ++ repeat 120 2).
    exists (repeat 0 42 ++ [128] ++ repeat 0 54 ++ be 2 27 ++ repeat 0 21
      ++ [3; 0; 0; 0] ++ be 2 (16372 - 126) ++ body (two_row 1 "abc") ++ repeat 0 (Z.to_nat (16372 - 152))), ([0; 0; 0] ++ be 2 0), [].
    split; [unfold cut_early, cut_page; rewrite <- !app_assoc; reflexivity|].
    split; [vm_compute; discriminate|]. split; [reflexivity|]. split; [vm_compute; reflexivity|]. repeat constructor.
  - intro rt. unfold stale_cols, two_lays, two_row, two_out. cbn [firstn map combine].
    eapply row_quiet; [discriminate|apply two_int; lia|].
    eapply row_quiet; [discriminate|reflexivity|]. constructor.
Qed.
