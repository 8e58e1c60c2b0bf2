(** Property C107: the checksums of pages. *)
From Coq Require Import ZifyBool Relations.
From Verif Require Import GoBase Utils Ibdata SpecInno SpecText SpecSql SpecRecord SpecRow SpecPage PBase PWire PValue PText PRec PPage PSql PFile PropValue PropRec PropPage PropFile.
Local Open Scope list_scope.

Section Sum.
Variable s : Z.


Lemma skip_sum n page : (4 <= n)%nat -> skipn n (with_sum s page) = skipn n page.
Proof. intro H. unfold with_sum. assert (L : List.length (be 4 s) = 4%nat) by reflexivity. rewrite skipn_app, L, skipn_all2 by lia. cbn [app]. rewrite skipn_skipn. f_equal. lia. Qed.
Lemma field_sum page p k : 4 <= p -> field (with_sum s page) p k = field page p k.
Proof. intro H. unfold field. rewrite skip_sum by lia. reflexivity. Qed.
Lemma nth_skip (l : list Z) n : nth n l 0 = nth 0 (skipn n l) 0.
Proof. revert n. induction l as [|x l IH]; intros [|n]; try reflexivity. cbn [nth skipn]. apply IH. Qed.
Lemma image_sum page : page_image page -> page_image (with_sum s page).
Proof.
  intros [H1 H2]. change (@zlen) with (@len) in *. split.
  - change (@zlen) with (@len). unfold with_sum. rewrite len_app, len_be, len_skipn by lia. lia.
  - unfold with_sum. apply Forall_app. split; [apply be_bytes|now apply all_bytes_skipn].
Qed.
Lemma format_sum compact page : in_format compact page -> in_format compact (with_sum s page).
Proof.
  unfold in_format, compact_page, redundant_page. rewrite (nth_skip (with_sum s page)), skip_sum, <- nth_skip by lia. destruct compact; intros [H1 H2]; (split; [now apply image_sum|exact H2]).
Qed.
Lemma app_sum pre x : (4 <= List.length pre)%nat -> with_sum s (pre ++ x) = with_sum s pre ++ x.
Proof. intro H. unfold with_sum. rewrite skipn_app. replace (4 - List.length pre)%nat with 0%nat by lia. cbn [skipn]. now rewrite app_assoc. Qed.
Lemma len_sum pre : (4 <= List.length pre)%nat -> zlen (with_sum s pre) = zlen pre.
Proof. intro H. change (@zlen) with (@len). unfold with_sum. rewrite len_app, len_be, len_skipn by (unfold len; lia). lia. Qed.
Lemma lengths_short ls : forall fs, zlen (lengths ls fs) <= 2 * zlen ls.
Proof.
  change (@zlen) with (@len). induction ls as [|l ls IH]; intros [|f fs]; cbn [lengths]; rewrite ?len_cons; change (len (@nil Z)) with 0; try (pose proof (len_nonneg ls); lia); try (unfold len; cbn; lia).
  rewrite len_app. specialize (IH fs). assert (X : len (length_bytes l f) <= 2); [|lia].
  unfold length_bytes. destruct f, (l_fixed l); try (unfold len; cbn; lia). destruct (l_big l && _); unfold len; cbn; lia.
Qed.
Lemma nullable_short ls : 0 <= nullable_count ls <= zlen ls.
Proof. unfold nullable_count, zlen. induction ls as [|l ls IH]; cbn [filter List.length]; [lia|]. destruct (l_nullable l); cbn [List.length]; lia. Qed.
Lemma ends_length nb fs : forall from, List.length (ends nb from fs) = List.length fs.
Proof. induction fs as [|f fs IH]; intro from; [reflexivity|]. cbn [ends List.length]. now rewrite IH. Qed.
Lemma stored_sum compact page off ls fs : (List.length ls <= 50)%nat -> 120 <= off -> stored_at compact page off ls fs -> stored_at compact (with_sum s page) off ls fs.
Proof.
  intros HL Ho. destruct compact; cbn [stored_at].
  - intros [pre [hd [post [E [H1 [H2 [H3 H4]]]]]]]. pose proof (lengths_short ls fs) as L1. pose proof (nullable_short ls) as L2. 
    assert (X : (nullable_count ls + 7) / 8 < 8) by (apply Z.div_lt_upper_bound; unfold zlen in *; lia).
    assert (HP : (4 <= List.length pre)%nat) by (unfold zlen in *; lia).
    exists (with_sum s pre), hd, post. rewrite E, app_sum, len_sum by exact HP. repeat (split; [assumption||reflexivity|]). exact H4.
  - intros [wide [vs [-> [[pre [hd [post [E [H1 [H2 [H3 H4]]]]]]] HF]]]]. exists wide, vs. split; [reflexivity|]. split; [|exact HF].
    assert (LV : List.length (map RBytes vs) = List.length ls) by (symmetry; eapply forall2_length; eassumption).
    assert (LO : zlen (if wide then flat_map (be 2) (rev (ends (2 ^ 15) 0 (map RBytes vs))) else rev (ends (2 ^ 7) 0 (map RBytes vs))) <= 100).
    { destruct wide.
      - assert (Y : forall l, List.length (flat_map (be 2) l) = (2 * List.length l)%nat) by (induction l as [|x l IH]; [reflexivity|]; cbn [flat_map]; rewrite app_length, IH; cbn [be app List.length]; lia).
        unfold zlen. rewrite Y, rev_length, ends_length. lia.
      - unfold zlen. rewrite rev_length, ends_length. lia. }
    assert (HP : (4 <= List.length pre)%nat) by (unfold zlen in *; lia).
    exists (with_sum s pre), hd, post. rewrite E, app_sum, len_sum by exact HP. repeat (split; [assumption||reflexivity|]). exact H4.
Qed.
Lemma rows_sum rt compact page cols ls offs rows lines : (List.length ls <= 50)%nat -> page_rows rt compact page cols ls offs rows lines -> page_rows rt compact (with_sum s page) cols ls offs rows lines.
Proof.
  intros HL H. induction H as [|off offs fs row rows lines HU HS HR _ IH]; [constructor|]. destruct HU as [U1 U2]. constructor; [split; assumption| | |exact IH].
  - now apply stored_sum.
  - rewrite skip_sum; [exact HR|]. unfold zlen. lia.
Qed.
Lemma rows_origins rt compact page cols ls offs rows lines : page_rows rt compact page cols ls offs rows lines -> Forall (fun o => 6 <= o) offs.
Proof. induction 1 as [|off offs fs row rows lines [U1 U2] _ _ _ IH]; constructor; [lia|exact IH]. Qed.
Lemma linked_sum compact page a b : 6 <= a -> linked compact page a b -> linked compact (with_sum s page) a b.
Proof. intro H. unfold linked. now rewrite field_sum by lia. Qed.
Lemma chain_sum compact page a offs z : 6 <= a -> Forall (fun o => 6 <= o) offs -> chain compact page a offs z -> chain compact (with_sum s page) a offs z.
Proof.
  intros Ha HF H. induction H as [a z H|a o offs z H _ IH]; [constructor; now apply linked_sum|]. inversion HF; subst. constructor; [now apply linked_sum|]. now apply IH.
Qed.
Lemma free_sum compact page offs : Forall (fun o => 6 <= o) offs -> free_chain compact page offs -> free_chain compact (with_sum s page) offs.
Proof.
  intros HF H. induction H as [o H|o o' offs H1 H2 _ IH]; inversion HF; subst; [constructor|constructor]; rewrite ?field_sum by lia; try assumption; [now apply linked_sum|now apply IH].
Qed.
Lemma content_sum rt tm deleted cols ls page c : (List.length ls <= 50)%nat -> page_content rt tm deleted cols ls page c -> page_content rt tm deleted cols ls (with_sum s page) c.
Proof.
  intros HL [compact [offs [H1 [H2 [H3 H4]]]]]. pose proof (rows_origins _ _ _ _ _ _ _ _ H4) as HO. exists compact, offs. split; [now apply format_sum|]. split; [exact H2|]. split; [|now apply rows_sum].
  destruct deleted.
  - destruct H3 as [A B]. split; [now apply free_sum|]. now rewrite field_sum by lia.
  - apply chain_sum; try assumption. destruct compact; cbn; lia.
Qed.
Lemma eligible_sum deleted page : eligible deleted (with_sum s page) = eligible deleted page.
Proof. unfold eligible. rewrite !field_sum by lia. reflexivity. Qed.
Lemma number_sum page : page_number (with_sum s page) = page_number page.
Proof. apply field_sum. lia. Qed.
End Sum.
Definition wrong_sum (checksum : list Z -> Z) (page : list Z) : list Z := with_sum ((checksum (skipn 4 page) + 1) mod 2 ^ 32) page.
Lemma firsts_sum g pages : firsts (map (fun p => with_sum (g p) p) pages) = map (fun p => with_sum (g p) p) (firsts pages).
Proof.
  unfold firsts. rewrite <- map_rev. induction (rev pages) as [|p b IH]; [reflexivity|]. cbn [map firsts_rev]. rewrite IH, map_app. f_equal.
  replace (existsb _ (map _ b)) with (existsb (fun q => page_number q =? page_number p) b); [now destruct (existsb _ b)|].
  clear IH. induction b as [|q b IH]; [reflexivity|]. cbn [map existsb]. rewrite !number_sum. now rewrite IH.
Qed.
Lemma filter_sum g deleted pages : filter (eligible deleted) (map (fun p => with_sum (g p) p) pages) = map (fun p => with_sum (g p) p) (filter (eligible deleted) pages).
Proof. induction pages as [|p ps IH]; [reflexivity|]. cbn [map filter]. rewrite eligible_sum. destruct (eligible deleted p); cbn [map]; now rewrite IH. Qed.

(** * C107 *)
(** False, for every checksum and every data file (its tables having at most 50
    columns): give every page a wrong checksum, and the file is printed with
    the same statements. *)
Theorem C107_checksum_refuted : forall checksum rt tm pages db tb deleted cols ls contents vals fuel,
  (forall d, 0 <= checksum d < 2 ^ 32) ->
  Forall page_image pages -> is_table tm db tb cols -> Forall2 describes cols ls -> (3 <= List.length cols <= 50)%nat ->
  Forall2 (page_content rt tm deleted cols ls) (filter (eligible deleted) (firsts pages)) contents ->
  Forall2 (fun content vss => Forall2 (fun row vs => shows rt row vs /\ vs <> []) (snd content) vss) contents vals ->
  ~ In 96 db -> ~ In 96 tb -> (Z.to_nat 16384 < fuel)%nat ->
  let damaged := map (wrong_sum checksum) pages in
  Forall (fun p => page_image p /\ ~ sound_page checksum p) damaged
  /\ exists lines, ParseDataPage fuel rt tm (Some (map IoBytes damaged)) db tb deleted = (lines, Ok None) /\ file_lines db tb contents vals lines.
Proof.
  intros checksum rt tm pages db tb deleted cols ls contents vals fuel Hc Hi Ht HD HL HC HV Hd Htb Hfuel damaged. split.
  - apply Forall_forall. intros p' Hp. apply in_map_iff in Hp as [p [<- Hp]]. rewrite Forall_forall in Hi. specialize (Hi p Hp). split; [now apply image_sum|].
    unfold sound_page, wrong_sum. specialize (Hc (skipn 4 p)) as Hc1. rewrite skip_sum by lia. set (c := checksum (skipn 4 p)) in *. unfold with_sum. rewrite firstn_app. change (List.length (be 4 ((c + 1) mod 2 ^ 32))) with 4%nat.
    change (4 - 4)%nat with 0%nat. rewrite firstn_O, app_nil_r. replace (firstn 4 (be 4 ((c + 1) mod 2 ^ 32))) with (be 4 ((c + 1) mod 2 ^ 32)) by reflexivity.
    rewrite be_val_be_small by (change (256 ^ Z.of_nat 4) with (2 ^ 32); apply Z.mod_pos_bound; reflexivity).
    destruct (Z.eq_dec c (2 ^ 32 - 1)) as [X|X]; [rewrite X; vm_compute; discriminate|]. rewrite Z.mod_small by lia. lia.
  - apply (C75_lines rt tm damaged db tb deleted cols ls contents vals fuel); try assumption; try lia.
    + apply Forall_forall. intros p' Hp. apply in_map_iff in Hp as [p [<- Hp]]. rewrite Forall_forall in Hi. now apply image_sum, Hi.
    + unfold damaged, wrong_sum. rewrite firsts_sum, filter_sum. assert (L : (List.length ls <= 50)%nat) by (rewrite <- (forall2_length _ _ _ HD); lia).
      clear - HC L. induction HC as [|p c ps cs H _ IH]; [constructor|]. cbn [map]. constructor; [now apply content_sum|exact IH].
Qed.
Print Assumptions C107_checksum_refuted.
(** Full statement: a page whose checksum is wrong contributes nothing.  Proved:
    if every page has the right one, the file is printed as the rows of its
    sound pages.  Missing (false): the other files. *)
Theorem C107_checksum_partial : forall (sound : list Z -> bool) rt tm pages db tb deleted cols ls contents vals fuel,
  Forall (fun p => sound p = true) pages ->
  Forall page_image pages -> is_table tm db tb cols -> Forall2 describes cols ls -> (3 <= List.length cols)%nat ->
  Forall2 (page_content rt tm deleted cols ls) (filter (fun p => sound p && eligible deleted p) (firsts pages)) contents ->
  Forall2 (fun content vss => Forall2 (fun row vs => shows rt row vs /\ vs <> []) (snd content) vss) contents vals ->
  ~ In 96 db -> ~ In 96 tb -> (Z.to_nat 16384 < fuel)%nat ->
  exists lines, ParseDataPage fuel rt tm (Some (map IoBytes pages)) db tb deleted = (lines, Ok None) /\ file_lines db tb contents vals lines.
Proof.
  intros sound rt tm pages db tb deleted cols ls contents vals fuel Hs Hi Ht HD HL HC HV Hd Htb Hfuel.
  apply (C75_lines rt tm pages db tb deleted cols ls contents vals fuel); try assumption.
  replace (filter (eligible deleted) (firsts pages)) with (filter (fun p => sound p && eligible deleted p) (firsts pages)); [exact HC|].
  apply filter_ext_in. intros p Hp. apply firsts_incl in Hp. rewrite Forall_forall in Hs. now rewrite (Hs p Hp).
Qed.
Print Assumptions C107_checksum_partial.
(** The file of C75 with the checksum that is 0 for both of its pages *)
Example C107_case : forall rt, let pages := [zero_page; leaf_page 3 53 65522 65510 0 0] in
  Forall (sound_page (fun _ => 0)) pages /\ Forall (fun p => ~ sound_page (fun _ => 0) p) (map (wrong_sum (fun _ => 0)) pages)
  /\ exists lines, ParseDataPage (S (Z.to_nat 16384)) rt [(7, two_table)] (Some (map IoBytes (map (wrong_sum (fun _ => 0)) pages))) (txt "d") (txt "t") false = (lines, Ok None)
     /\ file_lines (txt "d") (txt "t") [([], [two_out 2 "de"; two_out 1 "abc"])] [[[SStr (txt "2"); SStr (txt "de")]; [SStr (txt "1"); SStr (txt "abc")]]] lines.
Proof.
  intros rt pages. destruct (C75_case rt) as [H1 [H2 [H3 H4]]]. split; [repeat constructor|].
  destruct (C107_checksum_refuted (fun _ => 0) rt [(7, two_table)] pages (txt "d") (txt "t") false stale_cols two_lays [([], [two_out 2 "de"; two_out 1 "abc"])]
    [[[SStr (txt "2"); SStr (txt "de")]; [SStr (txt "1"); SStr (txt "abc")]]] (S (Z.to_nat 16384))) as [A B].
  - intros _. lia.
  - exact H1.
  - exact H2.
  - exact two_describes.
  - cbn. lia.
  - exact H3.
  - constructor; [exact H4|constructor].
  - cbn. intuition discriminate.
  - cbn. intuition discriminate.
  - lia.
  - split; [|exact B]. eapply Forall_impl; [|exact A]. intros p [_ X]. exact X.
Qed.
