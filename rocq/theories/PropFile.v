(** Properties C45-C50 and C75: data files.  Theorems only; proofs in PFile.v. *)
From Coq Require Import ZifyBool Relations.
From Verif Require Import GoBase Utils Ibdata SpecInno SpecText SpecSql SpecRecord SpecRow SpecPage PBase PWire PValue PText PRec PPage PSql PFile PropValue PropRec PropPage.
Local Open Scope list_scope.

(** Pages for the examples: the page of zeros, and the two-record page made a
    leaf page of a clustered index (type 17855 at 24), with a page number. *)
Definition zero_page : list Z := repeat 0 (Z.to_nat 16384).
Definition leaf_page (number inf a b : Z) (free garbage : Z) : list Z :=
  repeat 0 4 ++ be 4 number ++ repeat 0 16 ++ be 2 17855 ++ repeat 0 16 ++ [128; 0] ++ be 2 free ++ be 2 garbage ++ repeat 0 49
  ++ be 2 inf ++ repeat 0 21
  ++ [3; 0; 0; 0] ++ be 2 a ++ body (two_row 1 "abc") ++ [2; 0; 0; 0] ++ be 2 b ++ body (two_row 2 "de")
  ++ repeat 0 (Z.to_nat 16213).
Lemma leaf_format n inf a b f g : in_format true (leaf_page n inf a b f g).
Proof.
  assert (Hb : forall n, Forall (fun b => 0 <= b < 256) (repeat 0 n)) by (intro m; apply Forall_forall; intros x Hx; apply repeat_spec in Hx; lia).
  split; [split|].
  - change (@zlen) with (@len). unfold leaf_page. rewrite !len_app, !len_repeat, !len_be. reflexivity.
  - unfold leaf_page. repeat first [apply be_bytes | apply Hb | apply bytes_check; reflexivity | apply Forall_app; split].
  - cbv. discriminate.
Qed.
Lemma zero_image : page_image zero_page.
Proof.
  split; [reflexivity|]. apply Forall_forall. intros x Hx. apply repeat_spec in Hx. lia.
Qed.

(** C45: only eligible pages contribute: the output for a file is that for the
    file holding nothing but the eligible ones among its pages (of several pages
    with one number, the first). *)
Theorem C45_eligible : forall fuel rt tm pages db tb deleted, Forall page_image pages ->
  ParseDataPage (S fuel) rt tm (Some (map IoBytes pages)) db tb deleted
  = ParseDataPage (S fuel) rt tm (Some (map IoBytes (filter (eligible deleted) (firsts pages)))) db tb deleted.
Proof.
  intros fuel rt tm pages db tb deleted Hi.
  assert (Hfi : Forall page_image (firsts pages)).
  { apply Forall_forall. intros p Hp. apply firsts_incl in Hp. rewrite Forall_forall in Hi. now apply Hi. }
  assert (Hei : Forall page_image (filter (eligible deleted) (firsts pages))).
  { apply Forall_forall. intros p Hp. apply filter_In in Hp. rewrite Forall_forall in Hfi. now apply Hfi. }
  unfold ParseDataPage. rewrite !file_pages by assumption. rewrite !wbind_lift. cbv beta iota.
  f_equal. rewrite (eligible_filter fuel rt tm db tb deleted (firsts pages)) by exact Hfi.
  rewrite (firsts_filter (eligible deleted)). reflexivity.
Qed.
Print Assumptions C45_eligible.
Example C45_case : eligible false zero_page = false /\ eligible false (leaf_page 3 53 65522 65510 0 0) = true
  /\ eligible true (leaf_page 3 53 65522 65510 0 0) = false /\ eligible true (leaf_page 3 13 0 65510 152 51) = true.
Proof. repeat split; vm_compute; reflexivity. Qed.

(** C46: a file of whole pages is read as the sequence of its pages, without
    those whose page number occurred before. *)
Theorem C46_pages : forall pages, Forall page_image pages ->
  exists parsed, parseFile (Some (map IoBytes pages)) = Ok (parsed, None) /\ map pg_orig parsed = firsts pages.
Proof.
  intros pages Hi. exists (map as_page (firsts pages)). split; [now apply file_pages|].
  rewrite map_map. apply map_id.
Qed.
Print Assumptions C46_pages.
(** What [firsts] means: in file order, one page of each number, the first. *)
Theorem C46_firsts : forall pages,
  (forall p, In p (firsts pages) <-> exists before after, pages = before ++ p :: after /\ ~ In (page_number p) (map page_number before))
  /\ NoDup (map page_number (firsts pages))
  /\ (exists keep, firsts pages = map snd (filter (fun x => keep (fst x)) (combine (seq 0 (List.length pages)) pages))).
Proof.
  intro pages. unfold firsts. rewrite <- (rev_involutive pages). set (b := rev pages). clearbody b. clear pages. rewrite rev_involutive.
  assert (Hex : forall p b, existsb (fun q => page_number q =? page_number p) b = true <-> In (page_number p) (map page_number b)).
  { intros p l. rewrite existsb_exists, in_map_iff. split; intros [x [H1 H2]]; exists x; [split; [lia|assumption]|split; [assumption|lia]]. }
  split; [|split].
  - intro p. split.
    + induction b as [|q b IH]; [intros []|]. cbn [firsts_rev rev]. rewrite in_app_iff. intros [H|H].
      * destruct (IH H) as [be [af [E Hn]]]. exists be, (af ++ [q]). split; [rewrite E, <- app_assoc; reflexivity|exact Hn].
      * destruct (existsb _ b) eqn:E; [contradiction|]. destruct H as [<-|[]]. exists (rev b), []. split; [reflexivity|].
        apply not_true_iff_false in E. rewrite Hex in E. rewrite map_rev. intro X. apply E. now apply in_rev in X.
    + induction b as [|q b IH]; intros [be [af [E Hn]]]; [destruct be; discriminate|]. cbn [firsts_rev rev] in *. rewrite in_app_iff.
      destruct af as [|z af] using rev_ind.
      * apply app_inj_tail in E. destruct E as [E1 E2]. subst q be. right.
        destruct (existsb _ b) eqn:E; [|now left]. exfalso. apply Hex in E. apply Hn. rewrite map_rev. now apply -> in_rev.
      * left. apply IH. rewrite app_comm_cons, app_assoc in E. apply app_inj_tail in E. destruct E as [E _]. eauto.
  - induction b as [|q b IH]; [constructor|]. cbn [firsts_rev]. rewrite map_app. destruct (existsb _ b) eqn:E; [cbn [map]; rewrite app_nil_r; exact IH|].
    cbn [map]. apply NoDup_rev in IH. rewrite <- (rev_involutive (map _ _ ++ [_])). apply NoDup_rev. rewrite rev_app_distr. cbn [rev app].
    constructor; [|exact IH]. intro H. apply in_rev in H. apply not_true_iff_false in E. apply E, Hex.
    clear - H. induction b as [|x b IH]; [contradiction|]. cbn [firsts_rev] in H. rewrite map_app, in_app_iff in H. cbn [map]. destruct H as [H|H]; [right; now apply IH|].
    left. destruct (existsb _ b); [contradiction|]. cbn in H. tauto.
  - induction b as [|q b [keep IH]]; [exists (fun _ => true); reflexivity|]. cbn [firsts_rev rev].
    exists (fun i => if Nat.eqb i (List.length b) then negb (existsb (fun q0 => page_number q0 =? page_number q) b) else keep i).
    rewrite app_length, rev_length in *. cbn [List.length]. rewrite Nat.add_1_r, seq_S. cbn [Nat.add].
    assert (Hc : forall (l1 : list nat) (l2 : list (list Z)) x y, List.length l1 = List.length l2 -> combine (l1 ++ [x]) (l2 ++ [y]) = combine l1 l2 ++ [(x, y)]).
    { induction l1 as [|? ? IHl]; destruct l2; intros; try discriminate; [reflexivity|]. cbn. f_equal. apply IHl. now injection H. }
    rewrite Hc by (now rewrite seq_length, rev_length). rewrite filter_app, map_app. f_equal.
    + rewrite IH. f_equal. apply filter_ext_in. intros [i x] Hin. apply in_combine_l in Hin. apply in_seq in Hin. cbn [fst].
      destruct (Nat.eqb_spec i (List.length b)); [lia|reflexivity].
    + cbn [filter fst]. rewrite Nat.eqb_refl. destruct (existsb _ b); reflexivity.
Qed.
Print Assumptions C46_firsts.
Example C46_case : let p := leaf_page 3 53 65522 65510 0 0 in let q := leaf_page 3 13 0 65510 152 51 in
  Forall page_image [zero_page; p; zero_page; q] /\ firsts [zero_page; p; zero_page; q] = [zero_page; p] /\ p <> q.
Proof.
  cbv zeta. split; [|split].
  - repeat (apply Forall_cons; [first [apply zero_image | exact (proj1 (leaf_format _ _ _ _ _ _))]|]). apply Forall_nil.
  - unfold firsts. cbn [rev app firsts_rev existsb].
    replace (page_number zero_page) with 0 by (vm_compute; reflexivity).
    replace (page_number (leaf_page 3 53 65522 65510 0 0)) with 3 by (vm_compute; reflexivity).
    replace (page_number (leaf_page 3 13 0 65510 152 51)) with 3 by (vm_compute; reflexivity). reflexivity.
  - intro E. apply (f_equal (fun l => field l 44 2)) in E. vm_compute in E. discriminate.
Qed.

(** C47: false; 70 bytes after the last whole page are taken for a page. *)
Definition tail_bytes : list Z := firstn 70 (leaf_page 9 0 0 0 0 0).
Theorem C47_tail_refuted : exists parsed, parseFile (Some [IoBytes zero_page; IoBytes tail_bytes]) = Ok (parsed, None)
  /\ map (fun g => fil_offset (pg_fil g)) parsed = [0; 9] /\ map (fun g => fil_type (pg_fil g)) parsed = [0; 17855].
Proof. eexists. split; [vm_compute; reflexivity|]. split; reflexivity. Qed.
Print Assumptions C47_tail_refuted.
(** More: whatever the file, the bytes after the last whole page are read as
    the page they would begin if zeros followed them. *)
Theorem C47_exact_refuted : forall fuel rt tm pages tail db tb deleted, Forall page_image pages ->
  (1 <= zlen tail <= 16384) ->
  ParseDataPage fuel rt tm (Some (map IoBytes pages ++ [IoBytes tail])) db tb deleted
  = ParseDataPage fuel rt tm (Some (map IoBytes (pages ++ [tail ++ repeat 0 (Z.to_nat (16384 - zlen tail))]))) db tb deleted.
Proof.
  intros fuel rt tm pages tail db tb deleted Hi Hl. unfold ParseDataPage, parseFile. rewrite map_app. cbn [map].
  rewrite !file_loop by exact Hi. set (seen := rev _ ++ _). clearbody seen. cbn [parseFile_loop ReadNextBytes fst].
  unfold zlen in Hl.
  assert (E : firstn DefaultPageSize (tail ++ zeros DefaultPageSize) = tail ++ repeat 0 (Z.to_nat (16384 - zlen tail))).
  { rewrite firstn_app, firstn_all2 by (unfold DefaultPageSize; lia). f_equal. unfold zeros, zlen.
    replace DefaultPageSize with (Z.to_nat (16384 - Z.of_nat (List.length tail)) + (DefaultPageSize - Z.to_nat (16384 - Z.of_nat (List.length tail))))%nat at 2 by (unfold DefaultPageSize; lia).
    rewrite repeat_app. replace (DefaultPageSize - List.length tail)%nat with (Z.to_nat (16384 - Z.of_nat (List.length tail))) by (unfold DefaultPageSize; lia).
    apply firstn_app_exact. apply repeat_length. }
  set (q := tail ++ repeat 0 _) in *.
  assert (E2 : firstn DefaultPageSize (q ++ zeros DefaultPageSize) = q).
  { apply firstn_app_exact. unfold q, zlen. rewrite app_length, repeat_length. unfold DefaultPageSize. lia. }
  rewrite E, E2. reflexivity.
Qed.
Print Assumptions C47_exact_refuted.
Example C47_exact_case : 1 <= zlen tail_bytes <= 16384 /\ Forall page_image [zero_page].
Proof. split; [vm_compute; split; discriminate|]. constructor; [apply zero_image|constructor]. Qed.
(** Full statement: all tails.  Proved: tails of at most 25 bytes (too short to
    hold the page type) print nothing and change nothing. *)
Theorem C47_tail_partial : forall fuel rt tm pages tail db tb deleted, Forall page_image pages ->
  (1 <= List.length tail <= 25)%nat -> Forall (fun b => 0 <= b < 256) tail ->
  ParseDataPage (S fuel) rt tm (Some (map IoBytes pages ++ [IoBytes tail])) db tb deleted
  = ParseDataPage (S fuel) rt tm (Some (map IoBytes pages)) db tb deleted.
Proof.
  intros fuel rt tm pages tail db tb deleted Hi Hl Hb. unfold ParseDataPage. rewrite file_pages by exact Hi. unfold parseFile.
  rewrite file_loop by exact Hi. set (seen := rev _ ++ _). clearbody seen. rewrite fresh_firsts.
  set (q := firstn DefaultPageSize (tail ++ zeros DefaultPageSize)).
  assert (Hq : page_image q).
  { split; [unfold zlen, q; rewrite firstn_length, app_length; unfold zeros; rewrite repeat_length; unfold DefaultPageSize; lia|].
    apply all_bytes_firstn. apply all_bytes_app. split; [exact Hb|apply zeros_bytes]. }
  assert (Hf : field q 24 2 <> 17855).
  { unfold field, q. rewrite firstn_skipn_comm. rewrite firstn_firstn. change (Z.to_nat 24) with 24%nat.
    replace (Nat.min (24 + 2) DefaultPageSize) with 26%nat by (unfold DefaultPageSize; lia).
    rewrite firstn_app. rewrite (firstn_all2 tail) by lia. unfold zeros.
    assert (E : firstn (26 - List.length tail) (repeat 0 DefaultPageSize) = repeat 0 (26 - List.length tail)).
    { replace DefaultPageSize with ((26 - List.length tail) + (DefaultPageSize - (26 - List.length tail)))%nat by (unfold DefaultPageSize; lia).
      rewrite repeat_app. apply firstn_app_exact. apply repeat_length. }
    rewrite E. destruct (Nat.eq_dec (List.length tail) 25) as [E25|N25].
    - rewrite E25. rewrite <- (firstn_skipn 24 tail). assert (Hl1 : List.length (skipn 24 tail) = 1%nat) by (rewrite skipn_length; lia).
      destruct (skipn 24 tail) as [|x [|]] eqn:Ex; try discriminate.
      assert (Hx : 0 <= x < 256). { rewrite Forall_forall in Hb. apply Hb. rewrite <- (firstn_skipn 24 tail), Ex. apply in_or_app. right. now left. }
      rewrite <- app_assoc, skipn_app_exact by (rewrite firstn_length_le; lia). cbn. lia.
    - rewrite skipn_app. rewrite (skipn_all2 tail) by lia. cbn [app]. replace (26 - List.length tail)%nat with ((24 - List.length tail) + 2)%nat by lia.
      rewrite repeat_app, skipn_app_exact by apply repeat_length. cbn. lia. }
  cbn [parseFile_loop ReadNextBytes fst]. fold q. rewrite fil_header by exact Hq. fold (as_page q). cbn [bind].
  match goal with |- context [existsb ?f seen] => destruct (existsb f seen) end; cbn [bind]; [rewrite app_nil_r; reflexivity|].
  rewrite !wbind_lift. apply f_equal with (f := fun m => wbind m (fun _ => wret None)).
  change [as_page q] with (map as_page [q]). rewrite <- map_app.
  assert (Hfi : Forall page_image (firsts pages)).
  { apply Forall_forall. intros p Hp. apply firsts_incl in Hp. rewrite Forall_forall in Hi. now apply Hi. }
  rewrite eligible_filter by (apply Forall_app; split; [exact Hfi|constructor; [exact Hq|constructor]]).
  rewrite filter_app. cbn [filter]. replace (eligible deleted q) with false by (unfold eligible; lia).
  rewrite app_nil_r. symmetry. now apply eligible_filter.
Qed.
Print Assumptions C47_tail_partial.
Example C47_case : exists tail : list Z, List.length tail = 25%nat /\ Forall (fun b => 0 <= b < 256) tail /\ Forall page_image [leaf_page 3 53 65522 65510 0 0].
Proof.
  exists (firstn 25 (leaf_page 9 0 0 0 0 0)). split; [reflexivity|]. split; [apply bytes_check; reflexivity|].
  constructor; [exact (proj1 (leaf_format _ _ _ _ _ _))|constructor].
Qed.

(** C48: false; a read error ends the file silently. *)
Theorem C48_read_error_refuted : exists parsed, parseFile (Some [IoBytes zero_page; IoErr; IoBytes (leaf_page 3 53 65522 65510 0 0)]) = Ok (parsed, None)
  /\ map pg_orig parsed = [zero_page].
Proof. eexists. split; [|]. 
  - unfold parseFile. cbn [parseFile_loop]. rewrite (read_page zero_page zero_image), (fil_header zero_page zero_image). reflexivity.
  - reflexivity.
Qed.
Print Assumptions C48_read_error_refuted.
(** More: no failing read of any file that could be opened is ever reported. *)
Theorem C48_exact_refuted : forall fuel rt tm before after db tb deleted e,
  snd (ParseDataPage fuel rt tm (Some (before ++ IoErr :: after)) db tb deleted) <> Ok (Some e).
Proof.
  intros fuel rt tm before after db tb deleted e. unfold ParseDataPage, parseFile.
  destruct (parseFile_loop _ _) as [pages| |]; cbn; try discriminate.
  destruct (dataPages_loop _ _ _ _ _ _ _ _) as [o [u| |]]; cbn; discriminate.
Qed.
Print Assumptions C48_exact_refuted.
(** Full statement: all errors.  Proved: failing to open the file is reported
    and nothing is printed; and, beyond the statement, what was read before a
    read error is what is printed. *)
Theorem C48_open_error_partial : forall fuel rt tm db tb deleted,
  exists e, ParseDataPage fuel rt tm None db tb deleted = ([], Ok (Some e)) /\ e <> [].
Proof. intros. eexists. split; [reflexivity|discriminate]. Qed.
Print Assumptions C48_open_error_partial.
Theorem C48_read_error_partial : forall fuel rt tm pages rest db tb deleted, Forall page_image pages ->
  ParseDataPage fuel rt tm (Some (map IoBytes pages ++ IoErr :: rest)) db tb deleted
  = ParseDataPage fuel rt tm (Some (map IoBytes pages)) db tb deleted.
Proof.
  intros fuel rt tm pages rest db tb deleted Hi. unfold ParseDataPage. rewrite file_pages by exact Hi. unfold parseFile.
  rewrite file_loop by exact Hi. cbn [parseFile_loop ReadNextBytes fst bind]. now rewrite app_nil_r, fresh_firsts.
Qed.
Print Assumptions C48_read_error_partial.
Example C48_case : Forall page_image [zero_page; leaf_page 3 53 65522 65510 0 0].
Proof. constructor; [apply zero_image|]. constructor; [exact (proj1 (leaf_format _ _ _ _ _ _))|constructor]. Qed.

(** C49: the decoded headers. *)
Theorem C49_headers : forall p, page_image p -> exists g ph sp,
  parseFilHeader p = Ok g /\ parsePageHeader g = Ok ph /\ parseSysPageHeader g = Ok sp
  /\ pg_orig g = p /\ pg_index_id g = field p 66 8 /\ ph_index_id ph = field p 66 8
  /\ [fil_space (pg_fil g); fil_offset (pg_fil g); fil_prev (pg_fil g); fil_next (pg_fil g); fil_lsn (pg_fil g);
      fil_type (pg_fil g); fil_flush_lsn (pg_fil g); fil_arch (pg_fil g)]
     = [field p 0 4; field p 4 4; field p 8 4; field p 12 4; field p 16 8; field p 24 2; field p 26 8; field p 34 4]
  /\ [ph_slots ph; ph_heap_top ph; ph_n_heap ph; ph_free ph; ph_garbage ph; ph_last_insert ph; ph_direction ph;
      ph_n_direction ph; ph_n_recs ph; ph_max_trx_id ph; ph_level ph]
     = [field p 38 2; field p 40 2; field p 42 2; field p 44 2; field p 46 2; field p 48 2; field p 50 2;
        field p 52 2; field p 54 2; field p 56 8; field p 64 2]
  /\ [sp_row_id sp; sp_table_id sp; sp_index_id sp; sp_max_space sp; sp_mix_low sp; sp_tables sp; sp_table_ids sp;
      sp_columns sp; sp_indexes sp; sp_fields sp]
     = [field p 38 8; field p 46 8; field p 54 8; field p 62 4; field p 66 4; field p 70 4; field p 74 4; field p 78 4;
        field p 82 4; field p 86 4].
Proof.
  intros p Hp. exists (as_page p). eexists. eexists. split; [now apply fil_header|].
  split; [apply page_header; [exact Hp|reflexivity]|]. split; [apply sys_header; [exact Hp|reflexivity]|].
  repeat split.
Qed.
Print Assumptions C49_headers.
Example C49_case : let p := leaf_page 3 53 65522 65510 152 51 in page_image p /\ field p 4 4 = 3 /\ field p 24 2 = 17855 /\ field p 44 2 = 152 /\ field p 46 2 = 51.
Proof. split; [exact (proj1 (leaf_format _ _ _ _ _ _))|]. repeat split; vm_compute; reflexivity. Qed.

(** C50: false; nothing is reported. *)
Theorem C50_unknown_refuted : forall fuel rt db tb deleted,
  ParseDataPage (S fuel) rt [] (Some [IoBytes zero_page]) db tb deleted = ([], Ok None).
Proof.
  intros. unfold ParseDataPage. change [IoBytes zero_page] with (map IoBytes [zero_page]).
  assert (Hz : Forall page_image [zero_page]) by (constructor; [apply zero_image|constructor]).
  rewrite file_pages by exact Hz. rewrite wbind_lift. cbv iota beta.
  assert (He : eligible deleted zero_page = false) by (destruct deleted; vm_compute; reflexivity).
  change (firsts [zero_page]) with [zero_page]. cbn [map]. rewrite skip_page by (try apply zero_image; exact He). reflexivity.
Qed.
Print Assumptions C50_unknown_refuted.
(** Full statement: an error and no output.  Proved: no output, for every
    file and dictionary. *)
Theorem C50_unknown_partial : forall fuel rt tm file db tb deleted,
  (forall id t, In (id, t) tm -> ~ (t_db t = db /\ t_name t = tb)) ->
  fst (ParseDataPage fuel rt tm file db tb deleted) = [].
Proof.
  intros fuel rt tm file db tb deleted H. unfold ParseDataPage. rewrite (unknown_columns tm db tb H). unfold wlift.
  destruct (parseFile file) as [[pages err]| |]; cbn [wbind]; try reflexivity. destruct err; [reflexivity|].
  pose proof (no_columns_file fuel rt tm db tb deleted pages) as E.
  destruct (dataPages_loop fuel rt tm pages db tb deleted []) as [o [u| |]]; cbn in *; rewrite E; reflexivity.
Qed.
Print Assumptions C50_unknown_partial.
Example C50_case : forall id t, In (id, t) [(7, two_table)] -> ~ (t_db t = txt "d" /\ t_name t = txt "other").
Proof. intros id t [H|[]] [_ H2]. injection H as <- <-. discriminate H2. Qed.

(** What is read of a file whose pages may be cut short. *)
Lemma cut_lines : forall rt tm pages db tb deleted cols ls contents vals fuel,
  Forall page_image pages -> is_table tm db tb cols ->
  Forall2 describes cols ls -> (3 <= List.length cols)%nat ->
  Forall2 (cut_content rt tm deleted cols ls) (filter (eligible deleted) (firsts pages)) contents ->
  Forall2 (fun content vss => Forall2 (fun row vs => shows rt row vs /\ vs <> []) (snd content) vss) contents vals ->
  ~ In 96 db -> ~ In 96 tb -> (Z.to_nat 16384 < fuel)%nat ->
  exists lines, ParseDataPage fuel rt tm (Some (map IoBytes pages)) db tb deleted = (lines, Ok None)
    /\ file_lines db tb contents vals lines.
Proof.
  intros rt tm pages db tb deleted cols ls contents vals fuel Hi Ht HD H3 HC HV Hd Htb Hfuel.
  assert (Hfi : Forall page_image (firsts pages)).
  { apply Forall_forall. intros p Hp. apply firsts_incl in Hp. rewrite Forall_forall in Hi. now apply Hi. }
  unfold ParseDataPage. rewrite file_pages by exact Hi. rewrite wbind_lift. cbv beta iota. rewrite (known_columns _ _ _ _ Ht).
  destruct fuel as [|fuel]; [lia|]. rewrite eligible_filter by exact Hfi.
  destruct (cut_printed (S fuel) rt tm db tb deleted cols ls HD H3 Hfuel _ _ HC) with (cols1 := cols) as [shown [out [E HF]]].
  - apply Forall_forall. intros p Hp. apply filter_In in Hp. rewrite Forall_forall in Hfi. now apply Hfi.
  - apply Forall_forall. intros p Hp. apply filter_In in Hp. tauto.
  - apply moved_refls.
  - exists out. split; [rewrite E; cbn; now rewrite app_nil_r|].
    clear - HV HF Hd Htb. revert vals HV. induction HF as [|ct cts rows shown out Hr _ IH]; intros vals HV; inversion HV as [|? vs ? vals' H1 HV']; subst; constructor; [|now apply IH].
    clear - Hr H1 Hd Htb. revert vs H1. induction Hr as [|row row' rs rs' H _ IH]; intros vs HV; inversion HV as [|? v ? vs' [H1 H2] HV']; subst; cbn [map]; constructor.
    + now apply (shown_reads rt db tb row).
    + now apply IH.
Qed.
Lemma cut_said : forall rt tm pages db tb deleted cols ls contents vals fuel,
  Forall page_image pages -> is_table tm db tb cols ->
  Forall2 describes cols ls -> (3 <= List.length cols)%nat ->
  Forall2 (cut_content rt tm deleted cols ls) (filter (eligible deleted) (firsts pages)) contents ->
  Forall (fun content => fst content = []) contents ->
  Forall2 (fun row vs => shows rt row vs /\ vs <> []) (List.concat (map snd contents)) vals ->
  (Z.to_nat 16384 < fuel)%nat ->
  exists lines, ParseDataPage fuel rt tm (Some (map IoBytes pages)) db tb deleted = (lines, Ok None)
    /\ Forall2 (said rt db tb) vals lines.
Proof.
  intros rt tm pages db tb deleted cols ls contents vals fuel Hi Ht HD H3 HC Hq HV Hfuel.
  assert (Hfi : Forall page_image (firsts pages)).
  { apply Forall_forall. intros p Hp. apply firsts_incl in Hp. rewrite Forall_forall in Hi. now apply Hi. }
  unfold ParseDataPage. rewrite file_pages by exact Hi. rewrite wbind_lift. cbv beta iota. rewrite (known_columns _ _ _ _ Ht).
  destruct fuel as [|fuel]; [lia|]. rewrite eligible_filter by exact Hfi.
  destruct (cut_printed (S fuel) rt tm db tb deleted cols ls HD H3 Hfuel _ _ HC) with (cols1 := cols) as [shown [out [E HF]]].
  - apply Forall_forall. intros p Hp. apply filter_In in Hp. rewrite Forall_forall in Hfi. now apply Hfi.
  - apply Forall_forall. intros p Hp. apply filter_In in Hp. tauto.
  - apply moved_refls.
  - exists out. split; [rewrite E; cbn; now rewrite app_nil_r|].
    clear - HV HF Hq. revert vals HV. induction HF as [|ct cts rows shown out Hr _ IH]; intros vals HV; cbn [map List.concat] in HV.
    + inversion HV; subst. constructor.
    + inversion Hq as [|? ? Q1 Q2]; subst. rewrite Q1. cbn [app]. apply Forall2_app_inv_l in HV. destruct HV as [v1 [v2 [A [B ->]]]]. apply Forall2_app; [|now apply IH].
      clear - Hr A. revert v1 A. induction Hr as [|row row' rs rs' H _ IH]; intros vs HV; inversion HV as [|? v ? vs' [H1 H2] HV']; subst; cbn [map]; constructor; [|now apply IH].
      exists row, row'. auto.
Qed.
(** C75: from the file to the statements: a data file of whole pages, the
    eligible ones of which hold rows, is printed as one statement per row, in
    file and list order, each of which reads back as the values of the user's
    columns of that row; before those of a page come the messages about its
    DECIMAL values (C72), if any. *)
Theorem C75_lines : forall rt tm pages db tb deleted cols ls contents vals fuel,
  Forall page_image pages -> is_table tm db tb cols ->
  Forall2 describes cols ls -> (3 <= List.length cols)%nat ->
  Forall2 (page_content rt tm deleted cols ls) (filter (eligible deleted) (firsts pages)) contents ->
  Forall2 (fun content vss => Forall2 (fun row vs => shows rt row vs /\ vs <> []) (snd content) vss) contents vals ->
  ~ In 96 db -> ~ In 96 tb -> (Z.to_nat 16384 < fuel)%nat ->
  exists lines, ParseDataPage fuel rt tm (Some (map IoBytes pages)) db tb deleted = (lines, Ok None)
    /\ file_lines db tb contents vals lines.
Proof.
  intros rt tm pages db tb deleted cols ls contents vals fuel Hi Ht HD H3 HC. apply (cut_lines rt tm pages db tb deleted cols ls contents vals fuel); try assumption.
  clear - HC. induction HC; constructor; [now apply content_cut|assumption].
Qed.
Print Assumptions C75_lines.
(** Without DECIMAL values these are statements only. *)
Theorem C75_statements : forall rt tm pages db tb deleted cols ls contents vals fuel,
  Forall page_image pages -> is_table tm db tb cols ->
  Forall2 describes cols ls -> (3 <= List.length cols)%nat ->
  Forall2 (page_content rt tm deleted cols ls) (filter (eligible deleted) (firsts pages)) contents ->
  Forall (fun content => fst content = []) contents ->
  Forall2 (fun row vs => shows rt row vs /\ vs <> []) (List.concat (map snd contents)) vals ->
  ~ In 96 db -> ~ In 96 tb -> (Z.to_nat 16384 < fuel)%nat ->
  exists lines, ParseDataPage fuel rt tm (Some (map IoBytes pages)) db tb deleted = (lines, Ok None)
    /\ Forall2 (fun vs line => read_replace line = Some (db, tb, vs)) vals lines.
Proof.
  intros rt tm pages db tb deleted cols ls contents vals fuel Hi Ht HD H3 HC Hq HV Hd Htb Hfuel.
  destruct (cut_said rt tm pages db tb deleted cols ls contents vals fuel) as [lines [E H]]; try assumption.
  - clear - HC. induction HC; constructor; [now apply content_cut|assumption].
  - exists lines. split; [exact E|]. now apply (said_reads rt).
Qed.
Print Assumptions C75_statements.
(** A file with a page of zeros and a leaf page with two live records. *)
Lemma leaf_at n inf a b f g : stored_at true (leaf_page n inf a b f g) 126 two_lays (two_row 1 "abc")
  /\ stored_at true (leaf_page n inf a b f g) 152 two_lays (two_row 2 "de").
Proof.
  split.
  - exists (repeat 0 4 ++ be 4 n ++ repeat 0 16 ++ be 2 17855 ++ repeat 0 16 ++ [128; 0] ++ be 2 f ++ be 2 g ++ repeat 0 49 ++ be 2 inf ++ repeat 0 21), ([0; 0; 0] ++ be 2 a),
      ([2; 0; 0; 0] ++ be 2 b ++ body (two_row 2 "de") ++ repeat 0 (Z.to_nat 16213)).
    split; [unfold leaf_page; rewrite <- !app_assoc; reflexivity|].
    split; [reflexivity || (cbv; discriminate)|]. split; [reflexivity|]. split; [reflexivity|]. repeat constructor.
  - exists (repeat 0 4 ++ be 4 n ++ repeat 0 16 ++ be 2 17855 ++ repeat 0 16 ++ [128; 0] ++ be 2 f ++ be 2 g ++ repeat 0 49 ++ be 2 inf ++ repeat 0 21 ++ [3; 0; 0; 0] ++ be 2 a ++ body (two_row 1 "abc")), ([0; 0; 0] ++ be 2 b),
      (repeat 0 (Z.to_nat 16213)).
    split; [unfold leaf_page; rewrite <- !app_assoc; reflexivity|].
    split; [reflexivity || (cbv; discriminate)|]. split; [reflexivity|]. split; [reflexivity|]. repeat constructor.
Qed.
Lemma two_shows rt n v : 0 <= n < 10 -> printable (SStr (txt v)) -> shows rt (two_out n v) [SStr (fmt_d n); SStr (txt v)].
Proof.
  intros Hn Hv. unfold two_out, stale_cols. cbn [combine map fst snd].
  apply shows_user; [intros [H|[H|H]]; discriminate H|apply st_text; [apply text_int, fmt_d_spec|discriminate|reflexivity]| |].
  { destruct (int_text_facts n _ (fmt_d_spec n)) as [H1 [H2 H3]]. split; [exact H1|]. split; assumption. }
  apply shows_internal; [right; left; reflexivity|]. apply shows_internal; [right; right; reflexivity|].
  apply shows_user; [intros [H|[H|H]]; discriminate H|apply st_text; [apply text_str|discriminate|reflexivity]|exact Hv|]. constructor.
Qed.
Example C75_case : forall rt, let pages := [zero_page; leaf_page 3 53 65522 65510 0 0] in
  Forall page_image pages /\ is_table [(7, two_table)] (txt "d") (txt "t") stale_cols
  /\ Forall2 (page_content rt [(7, two_table)] false stale_cols two_lays) (filter (eligible false) (firsts pages)) [([], [two_out 2 "de"; two_out 1 "abc"])]
  /\ Forall2 (fun row vs => shows rt row vs /\ vs <> []) [two_out 2 "de"; two_out 1 "abc"]
       [[SStr (txt "2"); SStr (txt "de")]; [SStr (txt "1"); SStr (txt "abc")]].
Proof.
  intros rt pages. split; [|split; [|split]].
  - constructor; [apply zero_image|]. constructor; [exact (proj1 (leaf_format _ _ _ _ _ _))|constructor].
  - split; [exists 7, two_table; split; [now left|split; reflexivity]|]. intros id t [H|[]] _ _. injection H as <- <-. reflexivity.
  - assert (E : filter (eligible false) (firsts pages) = [leaf_page 3 53 65522 65510 0 0]).
    { unfold pages, firsts. cbn [rev app firsts_rev existsb].
      replace (page_number zero_page) with 0 by (vm_compute; reflexivity).
      replace (page_number (leaf_page 3 53 65522 65510 0 0)) with 3 by (vm_compute; reflexivity). cbn [Z.eqb orb app filter].
      destruct C45_case as [E1 [E2 _]]. rewrite E1, E2. reflexivity. }
    rewrite E. constructor; [|constructor]. exists true, [152; 126]. split; [apply leaf_format|]. split; [intros _; apply two_known; reflexivity|].
    split.
    + apply chain_step; [vm_compute; reflexivity|]. apply chain_step; [vm_compute; reflexivity|]. apply chain_end. vm_compute; reflexivity.
    + destruct (leaf_at 3 53 65522 65510 0 0) as [HA HB].
      eapply rows_quiet; [unfold user_origin; lia|exact HB|apply two_row_of; lia|reflexivity|].
      eapply rows_quiet; [unfold user_origin; lia|exact HA|apply two_row_of; lia|reflexivity|]. constructor.
  - constructor; [|constructor; [|constructor]]; (split; [|discriminate]); (apply (two_shows rt); [lia|]);
    (split; [apply bytes_check; reflexivity|split; discriminate]).
Qed.
