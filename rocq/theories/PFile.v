(** Lemmas about reading data files. *)
From Coq Require Import ZifyBool Relations.
From Verif Require Import GoBase Utils Ibdata SpecInno SpecText SpecSql SpecRecord SpecRow SpecPage PBase PWire PValue PText PRec PPage PSql.
Local Open Scope list_scope.

(** * Headers *)
Lemma skipn_split {A} (d : list A) p k : 0 <= p -> p + Z.of_nat k <= len d ->
  exists t, skipn (Z.to_nat p) d = firstn k (skipn (Z.to_nat p) d) ++ t /\ List.length (firstn k (skipn (Z.to_nat p) d)) = k.
Proof.
  intros H0 H. exists (skipn k (skipn (Z.to_nat p) d)).
  split; [symmetry; apply firstn_skipn|]. apply firstn_length_le.
  pose proof (len_skipn (Z.to_nat p) d ltac:(lia)) as E. unfold len in E, H. lia.
Qed.
Ltac field_read app_lemma :=
  intros Hb H0 H; unfold field;
  match goal with |- context [firstn ?k (skipn (Z.to_nat ?p) ?d)] =>
    destruct (skipn_split d p k H0 H) as [t [E Hl]]; rewrite E at 1; rewrite app_lemma; [reflexivity|now apply all_bytes_firstn, all_bytes_skipn|exact Hl] end.
Lemma at2 d p : all_bytes d -> 0 <= p -> p + Z.of_nat 2 <= len d -> MatchReadFrom2 (skipn (Z.to_nat p) d) = Ok (field d p 2).
Proof. field_read mrf2_app. Qed.
Lemma at4 d p : all_bytes d -> 0 <= p -> p + Z.of_nat 4 <= len d -> MatchReadFrom4 (skipn (Z.to_nat p) d) = Ok (field d p 4).
Proof. field_read mrf4_app. Qed.
Lemma at8 d p : all_bytes d -> 0 <= p -> p + Z.of_nat 8 <= len d -> MatchReadFrom8 (skipn (Z.to_nat p) d) = Ok (field d p 8).
Proof. field_read mrf8_app. Qed.
Lemma at4_0 d : all_bytes d -> 4 <= len d -> MatchReadFrom4 d = Ok (field d 0 4).
Proof. intros Hb H. exact (at4 d 0 Hb ltac:(lia) H). Qed.
Lemma at2_0 d : all_bytes d -> 2 <= len d -> MatchReadFrom2 d = Ok (field d 0 2).
Proof. intros Hb H. exact (at2 d 0 Hb ltac:(lia) H). Qed.
Lemma at8_0 d : all_bytes d -> 8 <= len d -> MatchReadFrom8 d = Ok (field d 0 8).
Proof. intros Hb H. exact (at8 d 0 Hb ltac:(lia) H). Qed.
Lemma field_skip d a p k : 0 <= a -> 0 <= p -> field (skipn (Z.to_nat a) d) p k = field d (a + p) k.
Proof. intros Ha Hp. unfold field. rewrite skipn_skipn. do 3 f_equal. lia. Qed.

Ltac hstep :=
  rewrite slice_from_ok by lia; cbn [bind];
  first [rewrite at8 by (try assumption; lia) | rewrite at4 by (try assumption; lia) | rewrite at2 by (try assumption; lia)]; cbn [bind].
Lemma fil_header p : page_image p ->
  parseFilHeader p = Ok (mkPage (mkFil (field p 0 4) (field p 4 4) (field p 8 4) (field p 12 4) (field p 16 8)
      (field p 24 2) (field p 26 8) (field p 34 4)) (field p 66 8) p (skipn (Z.to_nat 38) p)).
Proof.
  intros [Hl Hb]. change (zlen p) with (len p) in Hl. unfold parseFilHeader.
  hstep. rewrite at4_0 by (try assumption; lia). cbn [bind]. do 7 hstep.
  rewrite slice_from_ok by lia. reflexivity.
Qed.
Lemma page_header g p : page_image p -> pg_data g = skipn (Z.to_nat 38) p ->
  parsePageHeader g = Ok (mkPH (field p 38 2) (field p 40 2) (field p 42 2) (field p 44 2) (field p 46 2) (field p 48 2)
      (field p 50 2) (field p 52 2) (field p 54 2) (field p 56 8) (field p 64 2) (pg_index_id g)).
Proof.
  intros [Hl Hb] Hg. change (zlen p) with (len p) in Hl. unfold parsePageHeader. rewrite Hg.
  assert (Hb2 : all_bytes (skipn (Z.to_nat 38) p)) by now apply all_bytes_skipn.
  assert (Hl2 : len (skipn (Z.to_nat 38) p) = 16346) by (rewrite len_skipn; lia).
  pose proof (fun q k => field_skip p 38 q k ltac:(lia)) as Hs.
  set (d := skipn (Z.to_nat 38) p) in *. clearbody d.
  rewrite at2_0 by (try assumption; lia). cbn [bind]. do 11 hstep. rewrite slice_from_ok by lia. cbn [bind].
  rewrite !Hs by lia. reflexivity.
Qed.
Lemma sys_header g p : page_image p -> pg_data g = skipn (Z.to_nat 38) p ->
  parseSysPageHeader g = Ok (mkSys (field p 38 8) (field p 46 8) (field p 54 8) (field p 62 4) (field p 66 4)
      (field p 70 4) (field p 74 4) (field p 78 4) (field p 82 4) (field p 86 4)).
Proof.
  intros [Hl Hb] Hg. change (zlen p) with (len p) in Hl. unfold parseSysPageHeader. rewrite Hg.
  assert (Hb2 : all_bytes (skipn (Z.to_nat 38) p)) by now apply all_bytes_skipn.
  assert (Hl2 : len (skipn (Z.to_nat 38) p) = 16346) by (rewrite len_skipn; lia).
  pose proof (fun q k => field_skip p 38 q k ltac:(lia)) as Hs.
  set (d := skipn (Z.to_nat 38) p) in *. clearbody d.
  rewrite at8_0 by (try assumption; lia). cbn [bind]. do 9 hstep.
  rewrite !Hs by lia. reflexivity.
Qed.
(** the page the parser makes of a page image *)
Definition as_page (p : list Z) : Page :=
  mkPage (mkFil (field p 0 4) (field p 4 4) (field p 8 4) (field p 12 4) (field p 16 8)
      (field p 24 2) (field p 26 8) (field p 34 4)) (field p 66 8) p (skipn (Z.to_nat 38) p).

(** * The file *)
Fixpoint fresh (seen : list Z) (ps : list (list Z)) : list (list Z) :=
  match ps with
  | [] => []
  | p :: t => if existsb (Z.eqb (page_number p)) seen then fresh seen t else p :: fresh (page_number p :: seen) t
  end.
Lemma read_page p : page_image p -> fst (ReadNextBytes [IoBytes p] DefaultPageSize) = Some p.
Proof.
  intros [Hl _]. cbn [ReadNextBytes fst]. f_equal. apply firstn_app_exact. unfold DefaultPageSize. unfold zlen in Hl. lia.
Qed.
Lemma file_loop ps : Forall page_image ps -> forall seen tail,
  parseFile_loop (map IoBytes ps ++ tail) seen
  = (rest <- parseFile_loop tail (rev (map page_number (fresh seen ps)) ++ seen) ;; Ok (map as_page (fresh seen ps) ++ rest)).
Proof.
  induction 1 as [|p ps Hp _ IH]; intros seen tail; [cbn [map app fresh rev]; destruct (parseFile_loop tail seen); reflexivity|].
  cbn [map app parseFile_loop]. rewrite read_page by exact Hp. rewrite fil_header by exact Hp. cbn [bind pg_fil fil_offset fresh].
  change (field p 4 4) with (page_number p). destruct (existsb (Z.eqb (page_number p)) seen) eqn:E.
  - apply IH.
  - rewrite IH. cbn [map rev]. rewrite <- app_assoc. cbn [app].
    destruct (parseFile_loop tail _); reflexivity.
Qed.
Lemma existsb_sym (x : Z) l : existsb (Z.eqb x) (map page_number l) = existsb (fun q => page_number q =? x) l.
Proof. induction l as [|q l IH]; [reflexivity|]. cbn. now rewrite IH, (Z.eqb_sym x). Qed.
Lemma fresh_snoc : forall ps seen p, fresh seen (ps ++ [p])
  = fresh seen ps ++ (if existsb (Z.eqb (page_number p)) (seen ++ map page_number ps) then [] else [p]).
Proof.
  induction ps as [|q ps IH]; intros seen p.
  - cbn [app map fresh]. rewrite app_nil_r. destruct (existsb _ seen); reflexivity.
  - cbn [app map fresh]. destruct (existsb (Z.eqb (page_number q)) seen) eqn:E.
    + rewrite IH. do 2 f_equal. rewrite !existsb_app. cbn [existsb].
      destruct (Z.eqb_spec (page_number p) (page_number q)) as [Eq|Ne]; [rewrite Eq, E; reflexivity|reflexivity].
    + rewrite IH. cbn [app]. do 2 f_equal. rewrite !existsb_app. cbn [existsb app].
      rewrite existsb_app. destruct (page_number p =? page_number q), (existsb (Z.eqb (page_number p)) seen); reflexivity.
Qed.
Lemma fresh_firsts ps : fresh [] ps = firsts ps.
Proof.
  unfold firsts. rewrite <- (rev_involutive ps) at 1. induction (rev ps) as [|p b IH]; [reflexivity|].
  cbn [rev firsts_rev]. rewrite fresh_snoc, IH. do 2 f_equal. cbn [app].
  rewrite existsb_sym. f_equal. clear. 
  assert (H : forall f : list Z -> bool, existsb f (rev b) = existsb f b).
  { intro f. induction b as [|x b IH]; [reflexivity|]. cbn [rev existsb]. rewrite existsb_app, IH. cbn. destruct (f x), (existsb f b); reflexivity. }
  now rewrite H.
Qed.
Lemma file_pages ps : Forall page_image ps -> parseFile (Some (map IoBytes ps)) = Ok (map as_page (firsts ps), None).
Proof.
  intro H. unfold parseFile. rewrite <- (app_nil_r (map IoBytes ps)), file_loop by exact H. cbn [parseFile_loop bind].
  now rewrite app_nil_r, fresh_firsts.
Qed.
Lemma firsts_incl ps p : In p (firsts ps) -> In p ps.
Proof.
  unfold firsts. rewrite <- (rev_involutive ps) at 2. induction (rev ps) as [|q b IH]; [intros []|].
  cbn [firsts_rev rev]. rewrite !in_app_iff. intros [H|H]; [left; now apply IH|right]. destruct (existsb _ b); [contradiction|exact H].
Qed.

(** * Which pages are parsed *)
Lemma selected_page p rec : page_image p ->
  exists ph, parsePageHeader (as_page p) = Ok ph /\ ph_free ph = field p 44 2 /\
  page_selected (as_page p) ph rec
  = (field p 24 2 =? 17855) && (field p 64 2 =? 0) && (field p 56 8 =? 0)
    && (negb rec || ((0 <? field p 44 2) && (field p 44 2 <=? 16384) && negb (field p 46 2 =? 0))).
Proof.
  intro Hp. eexists. split; [apply page_header; [exact Hp|reflexivity]|]. split; [reflexivity|].
  unfold page_selected. cbn [ph_n_recs ph_free ph_garbage ph_level ph_max_trx_id as_page pg_fil fil_type].
  pose proof Hp as [_ Hb]. pose proof (field_bound p 44 2 Hb). pose proof (field_bound p 46 2 Hb). unfold FilPageIndex.
  destruct rec; lia.
Qed.
Lemma wbind_nil {A B} (a : A) (f : A -> W B) : wbind ([], Ok a) f = f a.
Proof. cbn. destruct (f a). reflexivity. Qed.
Lemma skip_page fuel rt tm p ps db tb rec cols : page_image p -> eligible rec p = false ->
  dataPages_loop (S fuel) rt tm (as_page p :: ps) db tb rec cols = dataPages_loop (S fuel) rt tm ps db tb rec cols.
Proof.
  intros Hp He. destruct (selected_page p rec Hp) as [ph [E1 [E2 E3]]]. cbn [dataPages_loop]. rewrite E1, wbind_lift, E3.
  unfold eligible in He. pose proof Hp as [_ Hb]. pose proof (field_bound p 44 2 Hb).
  match goal with |- context [if ?c then _ else _] => destruct c eqn:Ec end; [|reflexivity].
  assert (Hrec : rec = true) by (destruct rec; [reflexivity|]; rewrite <- He, <- Ec; cbn [negb orb]; reflexivity). subst rec. cbn [negb orb] in *.
  assert (Hfree : field p 44 2 = 16384) by lia.
  destruct (image_format p Hp) as [compact Hf]. cbn [as_page pg_orig].
  rewrite (parsePage_start (S fuel) rt tm p cols compact) by exact Hf. rewrite E2, Hfree. cbv iota.
  rewrite stop_loop by (try assumption; lia). unfold walked. rewrite wbind_nil. cbn [List.length Nat.eqb]. rewrite wbind_ret. reflexivity.
Qed.
Lemma eligible_selected p rec : page_image p -> eligible rec p = true -> exists ph, parsePageHeader (as_page p) = Ok ph /\ ph_free ph = field p 44 2
  /\ page_selected (as_page p) ph rec = true.
Proof.
  intros Hp He. destruct (selected_page p rec Hp) as [ph [E1 [E2 E3]]]. exists ph. split; [exact E1|]. split; [exact E2|]. rewrite E3.
  unfold eligible in He. destruct rec; lia.
Qed.
Lemma eligible_filter fuel rt tm db tb rec : forall ps, Forall page_image ps -> forall cols,
  dataPages_loop (S fuel) rt tm (map as_page ps) db tb rec cols
  = dataPages_loop (S fuel) rt tm (map as_page (filter (eligible rec) ps)) db tb rec cols.
Proof.
  induction 1 as [|p ps Hp _ IH]; intro cols; [reflexivity|]. cbn [map filter].
  destruct (eligible rec p) eqn:E.
  - cbn [map]. cbn [dataPages_loop]. apply wbind_ext. intro ph.
    destruct (page_selected (as_page p) ph rec); [|apply IH].
    apply wbind_ext. intros [rows c]. apply wbind_ext. intros _. apply IH.
  - rewrite skip_page by assumption. apply IH.
Qed.

(** * A table the dictionary does not have *)
Lemma no_columns rt tm page off : parsePage_record rt tm page off [] = ([], Panic).
Proof.
  unfold parsePage_record. pose proof (nf_slice_from page off) as H1. unfold wlift, nf in *.
  destruct (slice_from page off) as [x| |]; cbn [wbind app]; [|reflexivity|contradiction].
  assert (Hc : nf (PageIsCompact page)) by (unfold PageIsCompact, pageHeaderGetField; nfm). unfold nf in Hc.
  destruct (PageIsCompact page) as [c| |]; cbn [wbind app]; [|reflexivity|contradiction].
  destruct (c =? 0); reflexivity.
Qed.
Lemma no_columns_page fuel rt tm page rec free :
  exists r, parsePage fuel rt tm page [] rec free = ([], r) /\ (forall rows c, r = Ok (rows, c) -> rows = [] /\ c = []).
Proof.
  unfold parsePage, wlift. destruct (PageIsCompact page) as [c| |]; cbn [wbind app];
    [|exists Panic; split; [reflexivity|discriminate]|exists NoFuel; split; [reflexivity|discriminate]].
  destruct (bind _ _) as [b| |]; cbn [wbind app];
    [|exists Panic; split; [reflexivity|discriminate]|exists NoFuel; split; [reflexivity|discriminate]].
  set (sup := if c =? 0 then _ else _). set (off := if rec then _ else _). clearbody sup off.
  destruct fuel as [|fuel]; [exists NoFuel; split; [reflexivity|discriminate]|]. cbn [parsePage_loop].
  destruct (_ && _).
  - rewrite no_columns. exists Panic. split; [reflexivity|discriminate].
  - unfold wlift. destruct (d <- _ ;; _) as [x| |]; cbn;
      [|exists Panic; split; [reflexivity|discriminate]|exists NoFuel; split; [reflexivity|discriminate]].
    exists (Ok ([], [])). split; [reflexivity|]. intros rows c' H. injection H as <- <-. auto.
Qed.
Lemma no_columns_file fuel rt tm db tb rec : forall pages, fst (dataPages_loop fuel rt tm pages db tb rec []) = [].
Proof.
  induction pages as [|p ps IH]; [reflexivity|]. cbn [dataPages_loop]. unfold wlift at 1.
  destruct (parsePageHeader p) as [ph| |]; cbn [wbind app]; [|reflexivity|reflexivity].
  destruct (page_selected p ph rec).
  - destruct (no_columns_page fuel rt tm (pg_orig p) rec (ph_free ph)) as [r [E H]]. rewrite E.
    destruct r as [[rows c]| |]; cbn [wbind]; [|reflexivity|reflexivity].
    destruct (H rows c eq_refl) as [-> ->]. cbn [List.length Nat.eqb wret wbind].
    destruct (dataPages_loop fuel rt tm ps db tb rec []) as [o r]. cbn in *. exact IH.
  - destruct (dataPages_loop fuel rt tm ps db tb rec []) as [o r]. cbn in *. exact IH.
Qed.
Lemma unknown_columns tm db tb : (forall id t, In (id, t) tm -> ~ (t_db t = db /\ t_name t = tb)) ->
  getTableColumnsFromDict tm db tb = [].
Proof.
  unfold getTableColumnsFromDict. intro H. generalize (@nil Column) as acc.
  induction tm as [|[id t] tm IH]; intro acc; [reflexivity|]. cbn [fold_left snd].
  replace (beq (t_db t) db && beq (t_name t) tb) with false.
  - apply IH. intros i t' Hi. apply (H i t'). now right.
  - symmetry. apply not_true_iff_false. rewrite andb_true_iff, !beq_eq. apply (H id t). now left.
Qed.

(** * From pages to statements *)
Lemma decoded_length rt tm page cols offs rows lines cols' : decoded rt tm page cols offs rows lines cols' -> List.length rows = List.length offs.
Proof. induction 1; cbn; congruence. Qed.
(** the rows that are read from a page: the walk may also be led beyond the last place where a record is looked for *)
Definition cut_content (rt : runtime) (tm : gomap Table) (deleted : bool) (cols : list Column) (ls : list layout)
    (page : list Z) (content : list bytes * list (list Column)) : Prop :=
  exists compact offs, in_format compact page /\ (compact = true -> known tm cols ls)
    /\ (if deleted then (free_chain compact page offs /\ hd_error offs = Some (field page 44 2))
           \/ exists z, 16378 <= z < 65536 /\ match offs with [] => z = field page 44 2 | o :: offs' => o = field page 44 2 /\ chain compact page o offs' z end
        else exists z, stops compact z /\ chain compact page (infimum compact) offs z)
    /\ page_rows rt compact page cols ls offs (snd content) (fst content).
Lemma content_cut rt tm deleted cols ls page content : page_content rt tm deleted cols ls page content -> cut_content rt tm deleted cols ls page content.
Proof.
  intros [compact [offs [A [B [C D]]]]]. exists compact, offs. split; [exact A|]. split; [exact B|]. split; [|exact D].
  destruct deleted; [now left|]. exists (supremum compact). split; [now left|exact C].
Qed.
Lemma content_parsed rt tm rec cols ls page content cols1 fuel free : Forall2 describes cols ls -> (3 <= List.length cols)%nat ->
  cut_content rt tm rec cols ls page content -> Forall2 moved cols cols1 -> (Z.to_nat 16384 < fuel)%nat -> free = field page 44 2 ->
  exists shown cols2, parsePage fuel rt tm page cols1 rec free = (fst content, Ok (shown, cols2))
    /\ Forall2 (Forall2 as_decoded) (snd content) shown /\ Forall2 moved cols cols2.
Proof.
  destruct content as [lines rows]. cbn [fst snd].
  intros HD H3 [compact [offs [Hf [Hk [Hc HR]]]]] HM Hfuel Hfree. cbn [fst snd] in HR.
  destruct (rows_decoded rt tm compact page cols ls Hf Hk HD H3 offs rows lines HR cols1 HM) as [shown [cols2 [D1 [D2 D3]]]].
  exists shown, cols2. split; [|split; assumption]. pose proof (format_image _ _ Hf) as Hi.
  pose proof (rows_origins _ _ _ _ _ _ _ _ HR) as Hu. pose proof (decoded_length _ _ _ _ _ _ _ _ D1) as Hl.
  assert (Hall : forall f, (List.length offs < f)%nat -> parsePage f rt tm page cols1 rec free = walked lines shown cols2).
  { intros f Hff. destruct rec.
    - destruct Hc as [[Hc Hh]|[z [Hz Hc]]]; [|rewrite <- Hfree in Hc; now apply (page_freed rt tm page compact z offs shown lines cols1 cols2 f)]. destruct offs as [|o offs]; [inversion Hc|]. cbn in Hh. injection Hh as ->. rewrite Hfree.
      now apply (page_free rt tm page compact _ offs shown lines cols1 cols2 f).
    - destruct Hc as [z [Hz Hc]]. now apply (page_walk rt tm page compact z offs shown lines cols1 cols2 f). }
  apply Hall. pose proof (Hall (S (List.length offs)) ltac:(lia)) as E. unfold walked in E.
  rewrite (parsePage_start _ rt tm page cols1 compact) in E by exact Hf.
  destruct (walk_rows rt tm page _ cols1 Hi _ _ _ _ _ _ (moved_refls cols1) E) as [k [Hlife Hk2]].
  pose proof (life_bound _ 16378 k _ (fun y => step_range rt tm page _ cols1 y) Hlife). lia.
Qed.
Lemma wbind_out {A B} (o : list bytes) (a : A) (f : A -> W B) o2 r : f a = (o2, r) -> wbind (o, Ok a) f = (o ++ o2, r).
Proof. intro E. unfold wbind. now rewrite E. Qed.
(** page by page: the lines printed while it is decoded, then its statements *)
Inductive pages_out (rt : runtime) (db tb : bytes) : list (list bytes * list (list Column)) -> list (list (list Column)) -> list bytes -> Prop :=
| po_nil : pages_out rt db tb [] [] []
| po_cons ct cts rows shown out : Forall2 (Forall2 as_decoded) (snd ct) rows -> pages_out rt db tb cts shown out ->
    pages_out rt db tb (ct :: cts) (rows :: shown) (fst ct ++ map (replace_statement rt tb db) rows ++ out).
Lemma cut_printed fuel rt tm db tb rec cols ls : Forall2 describes cols ls -> (3 <= List.length cols)%nat -> (Z.to_nat 16384 < fuel)%nat ->
  forall ps contents, Forall2 (cut_content rt tm rec cols ls) ps contents -> Forall page_image ps -> Forall (fun p => eligible rec p = true) ps ->
  forall cols1, Forall2 moved cols cols1 ->
  exists shown out, dataPages_loop fuel rt tm (map as_page ps) db tb rec cols1 = (out, Ok tt) /\ pages_out rt db tb contents shown out.
Proof.
  intros HD H3 Hfuel. induction 1 as [|p ct ps contents Hp _ IH]; intros Hi He cols1 HM.
  - exists [], []. split; [reflexivity|constructor].
  - inversion Hi as [|? ? Hi1 Hi2]; subst. inversion He as [|? ? He1 He2]; subst.
    destruct (eligible_selected p rec Hi1 He1) as [ph [E1 [E2 E3]]].
    destruct (content_parsed rt tm rec cols ls p ct cols1 fuel (ph_free ph) HD H3 Hp HM Hfuel E2) as [shown [cols2 [P1 [P2 P3]]]].
    destruct (IH Hi2 He2 cols2 P3) as [shown2 [out [Q1 Q2]]].
    exists (shown :: shown2), (fst ct ++ map (replace_statement rt tb db) shown ++ out). split; [|now constructor].
    cbn [map dataPages_loop]. rewrite E1, wbind_lift, E3. cbn [as_page pg_orig]. rewrite P1. apply wbind_out.
    cbv beta iota. rewrite Q1. destruct shown as [|r rs]; reflexivity.
Qed.
Lemma pages_printed fuel rt tm db tb rec cols ls : Forall2 describes cols ls -> (3 <= List.length cols)%nat -> (Z.to_nat 16384 < fuel)%nat ->
  forall ps contents, Forall2 (page_content rt tm rec cols ls) ps contents -> Forall page_image ps -> Forall (fun p => eligible rec p = true) ps ->
  forall cols1, Forall2 moved cols cols1 ->
  exists shown out, dataPages_loop fuel rt tm (map as_page ps) db tb rec cols1 = (out, Ok tt) /\ pages_out rt db tb contents shown out.
Proof.
  intros HD H3 Hfuel ps contents HP. apply (cut_printed fuel rt tm db tb rec cols ls HD H3 Hfuel). induction HP; constructor; [now apply content_cut|assumption].
Qed.
Lemma known_columns tm db tb cols : is_table tm db tb cols -> getTableColumnsFromDict tm db tb = cols.
Proof.
  unfold getTableColumnsFromDict. intros [[id [t [Hin [Hd Ht]]]] Hall]. generalize (@nil Column) as acc. revert Hin Hall.
  induction tm as [|[id' t'] tm IH]; intros Hin Hall acc; [contradiction|]. cbn [fold_left snd].
  destruct Hin as [Heq|Hin].
  - injection Heq as -> ->. rewrite Hd, Ht, !beq_refl. cbn [andb]. rewrite (Hall id t (or_introl eq_refl) Hd Ht).
    assert (Hall' : forall i u, In (i, u) tm -> t_db u = db -> t_name u = tb -> t_columns u = cols) by (intros i u H; apply (Hall i u); now right).
    clear - Hall'. induction tm as [|[i u] tm IH]; [reflexivity|]. cbn [fold_left snd].
    destruct (beq (t_db u) db && beq (t_name u) tb) eqn:E.
    + apply andb_true_iff in E. rewrite !beq_eq in E. destruct E as [E1 E2]. rewrite (Hall' i u (or_introl eq_refl) E1 E2).
      apply IH. intros j w H. apply (Hall' j w). now right.
    + apply IH. intros j w H. apply (Hall' j w). now right.
  - apply IH; [exact Hin|]. intros i u H. apply (Hall i u). now right.
Qed.

(** * From rows to what the statements say *)
Lemma decoded_stands rt c0 c v : as_decoded c0 c -> stands_for rt c0 v -> printable v -> stands_for rt c v.
Proof.
  intros [->|[Hn ->]] Hs Hp; [exact Hs|].
  destruct Hs as [c0 Hv Hb|c0 t Ht Hb Hbin|c0 h b Hv Hh Hb Hbin|c0 n Hv Hb Hbin].
  - now apply st_null.
  - exfalso. rewrite Hn in Ht. inversion Ht; subst. destruct Hp as [_ [Hp _]]. contradiction.
  - eapply st_bytes; eauto.
  - rewrite Hn in Hv. discriminate.
Qed.
Lemma decoded_name c0 c : as_decoded c0 c -> c_name c = c_name c0.
Proof. intros [->|[_ ->]]; reflexivity. Qed.
Lemma shown_columns rt row vals : shows rt row vals -> forall row', Forall2 as_decoded row row' ->
  Forall2 (fun c v => stands_for rt c v /\ readable v) (filter user row') vals.
Proof.
  induction 1 as [|c cs vs Hi _ IH|c cs v vs Hi Hs Hp _ IH]; intros row' HF; inversion HF as [|? c' ? cs' Hc HF']; subst; cbn [filter].
  - constructor.
  - replace (user c') with false; [now apply IH|]. symmetry. apply not_true_iff_false. rewrite user_spec. unfold internal in *.
    rewrite (decoded_name c c' Hc). tauto.
  - replace (user c') with true.
    + constructor; [|now apply IH]. split; [now apply (decoded_stands rt c)|]. destruct v; cbn in *; try exact I; tauto.
    + symmetry. apply user_spec. unfold internal in *. now rewrite (decoded_name c c' Hc).
Qed.
Lemma shown_reads rt db tb row row' vals : shows rt row vals -> vals <> [] -> Forall2 as_decoded row row' -> ~ In 96 db -> ~ In 96 tb ->
  read_replace (replace_statement rt tb db row') = Some (db, tb, vals).
Proof.
  intros Hs Hne HF Hd Ht. pose proof (shown_columns rt row vals Hs row' HF) as H.
  destruct vals as [|v vs]; [contradiction|]. inversion H as [|c ? cs ? Hc Hcs E]; subst.
  apply (replace_reads rt db tb row' c cs v vs Hd Ht); [congruence|]. constructor; assumption.
Qed.

(** the line of a row *)
Definition said (rt : runtime) (db tb : bytes) (vs : list sqlval) (line : bytes) : Prop :=
  exists row row', shows rt row vs /\ vs <> [] /\ Forall2 as_decoded row row' /\ line = replace_statement rt tb db row'.
Lemma said_reads rt db tb rows lines : ~ In 96 db -> ~ In 96 tb -> Forall2 (said rt db tb) rows lines ->
  Forall2 (fun vs line => read_replace line = Some (db, tb, vs)) rows lines.
Proof. intros Hd Ht. induction 1 as [|vs line rows lines [row [row' [H1 [H2 [H3 ->]]]]] _ IH]; constructor; [now apply (shown_reads rt db tb row)|exact IH]. Qed.

(** * Pages with distinct numbers *)
Lemma number_in p b : existsb (fun q => page_number q =? page_number p) b = true <-> In (page_number p) (map page_number b).
Proof.
  rewrite existsb_exists, in_map_iff. split; intros [x [H1 H2]]; exists x; [split; [lia|assumption]|split; [assumption|lia]].
Qed.
Lemma numbers_firsts b n : In n (map page_number (firsts_rev b)) -> In n (map page_number b).
Proof.
  induction b as [|x b IH]; [intros []|]. cbn [firsts_rev]. rewrite map_app, in_app_iff. cbn [map]. intros [H|H]; [right; now apply IH|].
  left. destruct (existsb _ b); [contradiction|]. cbn in H. tauto.
Qed.
Lemma numbers_distinct b : NoDup (map page_number (firsts_rev b)).
Proof.
  induction b as [|q b IH]; [constructor|]. cbn [firsts_rev]. rewrite map_app. destruct (existsb _ b) eqn:E; [cbn [map]; rewrite app_nil_r; exact IH|].
  cbn [map]. apply NoDup_rev in IH. rewrite <- (rev_involutive (map _ _ ++ [_])). apply NoDup_rev. rewrite rev_app_distr. cbn [rev app].
  constructor; [|exact IH]. intro H. apply in_rev in H. apply not_true_iff_false in E. apply E, number_in. now apply numbers_firsts.
Qed.
Lemma distinct_firsts l : NoDup (map page_number l) -> firsts l = l.
Proof.
  unfold firsts. intro H. rewrite <- (rev_involutive l) at 2. assert (Hr : NoDup (map page_number (rev l))) by (rewrite map_rev; now apply NoDup_rev).
  clear H. induction (rev l) as [|p b IH]; [reflexivity|]. cbn [firsts_rev rev]. cbn [map] in Hr. inversion Hr as [|? ? Hn Hr']; subst. rewrite IH by exact Hr'.
  f_equal. destruct (existsb _ b) eqn:E; [|reflexivity]. apply number_in in E. contradiction.
Qed.
Lemma firsts_filter f l : firsts (filter f (firsts l)) = filter f (firsts l).
Proof.
  apply distinct_firsts. pose proof (numbers_distinct (rev l)) as H. unfold firsts. induction (firsts_rev (rev l)) as [|p b IH]; [constructor|].
  cbn [map] in H. inversion H as [|? ? Hn H']; subst. cbn [filter]. destruct (f p); [|now apply IH]. cbn [map]. constructor; [|now apply IH].
  intro X. apply Hn. apply in_map_iff in X. destruct X as [y [E Hy]]. apply filter_In in Hy. rewrite <- E. apply in_map. tauto.
Qed.
