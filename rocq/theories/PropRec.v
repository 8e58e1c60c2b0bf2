(** Properties C34-C39 and C51: records.  Theorems only; proofs in PRec.v.
    Records are laid out by the independent specification SpecRecord.v. *)
From Coq Require Import ZifyBool.
From Verif Require Import GoBase Utils Ibdata SpecInno SpecText SpecSql SpecRecord SpecRow PBase PWire PValue PText PRec PropValue.
Local Open Scope list_scope.

(** Column descriptors, layouts and pages for the examples. *)
Definition dcol (name : string) (type mysql len : Z) (nullable : bool) : Column :=
  mkColumn (txt name) type mysql 0 len VNil nullable false false 7.
Definition fixed (n : Z) := mkLayout false (Some n) false.
Definition varying (nullable big : bool) := mkLayout nullable None big.
Definition dcols : list Column :=
  [ dcol "id" 6 3 4 false; dcol "DB_TRX_ID" 0 0 6 false; dcol "DB_ROLL_PTR" 0 0 7 false;
    dcol "a" 12 15 30 true; dcol "b" 12 15 600 true; dcol "c" 12 15 30 true ].
Definition dlays : list layout :=
  [ fixed 4; fixed 6; fixed 7; varying true false; varying true true; varying true false ].
Definition dtable : Table := mkTable (txt "d") (txt "t") dcols [] 3 0.
Definition drow : list stored :=
  [ FBytes [128; 0; 0; 5]; FBytes (repeat 1 6); FBytes (repeat 2 7);
    FBytes (txt "xy"); FBytes (repeat 97 300); FNull ].
Definition page_of (format : Z) (middle : list Z) : list Z :=
  repeat 0 42 ++ [format] ++ repeat 0 57 ++ middle ++ repeat 0 (Z.to_nat (16284 - zlen middle)).
Lemma page_of_image f m : 0 <= f < 256 -> Forall (fun b => 0 <= b < 256) m -> zlen m <= 16284 ->
  page_image (page_of f m) /\ nth 42 (page_of f m) 0 = f.
Proof.
  intros Hf Hm Hl. change (@zlen) with (@len) in *. unfold page_of, page_image. change (@zlen) with (@len). split; [split|].
  - rewrite !len_app, !len_repeat. change (len [f]) with 1. pose proof (len_nonneg m). lia.
  - assert (Hr : forall n, Forall (fun b => 0 <= b < 256) (repeat 0 n)) by (intro n; apply Forall_forall; intros x Hx; apply repeat_spec in Hx; lia).
    repeat (apply Forall_app; split); auto.
  - rewrite app_nth2 by (rewrite repeat_length; lia). reflexivity.
Qed.
Lemma bytes_check m : forallb (fun b => (0 <=? b) && (b <? 256)) m = true -> Forall (fun b => 0 <= b < 256) m.
Proof. intro H. rewrite forallb_forall in H. apply Forall_forall. intros x Hx. specialize (H x Hx). lia. Qed.

Ltac solve_describes := repeat (apply Forall2_cons; [split; [reflexivity|cbn; intuition (try lia; try discriminate)]|]); apply Forall2_nil.

(** C34: the offsets computed for a COMPACT record select, for every column,
    its stored bytes, with their number; and say NULL (length 2^32 - 1)
    exactly for the NULL columns.  (Every clustered index has at least three
    columns: a key or row id, and two internal ones.) *)
Theorem C34_fields : forall page off ls fs table,
  compact_page page -> compact_at page off ls fs ->
  Forall2 describes (t_columns table) ls -> t_nullcount table = nullable_count ls ->
  (3 <= List.length ls)%nat ->
  exists offsets, ibRecInitOffsetsNew page off (zeros (List.length ls * 2)) table = Ok offsets /\
  forall i f, nth_error fs i = Some f -> exists rest,
    RecGetNthField (skipn (Z.to_nat off) page) offsets (Z.of_nat i)
    = Ok (content f ++ rest, match f with FNull => 2 ^ 32 - 1 | _ => zlen (content f) end)
    /\ (f <> FNull -> zlen (content f) < 2 ^ 32 - 1).
Proof.
  intros page off ls fs table [Hpi Hcp] Hat HC Hnc Hn.
  pose proof Hat as (pre & header & post0 & _ & _ & _ & _ & HF).
  destruct (compact_skip page off ls fs Hat) as [post [Hsk [Ho0 [Hle Hpost]]]].
  pose proof Hpi as [Hpl Hpb]. change (@zlen) with (@len) in *.
  rewrite <- (forall2_length _ _ _ HC).
  eexists. split; [apply (offsets_new page off table (t_columns table) ls fs); try assumption; try reflexivity; try (rewrite (forall2_length _ _ _ HC); assumption); try lia|].
  intros i f Hf. rewrite Hsk. eexists. split.
  - erewrite get_field; [reflexivity| | | |reflexivity]; [unfold holds; eauto|exact Hf|lia].
  - intros _. pose proof (body_split fs i f Hf) as E. apply (f_equal (@len Z)) in E. rewrite !len_app in E.
    pose proof (len_nonneg (body (firstn i fs))). pose proof (len_nonneg (body (skipn (S i) fs))). lia.
Qed.
Print Assumptions C34_fields.
(** C34, whole rows: decoding the record gives the row made of each column's
    own bytes. *)
Theorem C34_row : forall rt tm page off cols ls fs table c0 row,
  compact_page page -> compact_at page off ls fs ->
  Forall2 describes cols ls -> Forall2 describes (t_columns table) ls -> t_nullcount table = nullable_count ls ->
  (3 <= List.length cols)%nat -> hd_error cols = Some c0 -> mget tm (c_table c0) = Some table ->
  row_of rt (skipn (Z.to_nat (off + zlen (body fs))) page) cols ls fs row ->
  parsePage_record rt tm page off cols = (remarks cols fs, Ok (Some row)).
Proof.
  intros rt tm page off cols ls fs table c0 row H1 H2 H3 H4 H5 H6 H7 H8 HR.
  rewrite (record_compact rt tm page off cols ls fs table c0) by assumption.
  change (@zlen) with (@len) in HR. rewrite (row_of_values _ _ _ _ _ _ HR). apply wbind_pure.
Qed.
Print Assumptions C34_row.
Definition dmiddle : list Z := rev (lengths dlays drow) ++ be 1 (flags_number (null_flags dlays drow)) ++ repeat 0 5 ++ body drow.
Lemma int_five rt r : ParseData rt 6 3 ([128; 0; 0; 5] ++ r) 4 4 false false = ([], Ok (VInt 5, false)).
Proof.
  unfold ParseData. rewrite (slice_to_app [128; 0; 0; 5] r 4) by reflexivity. reflexivity.
Qed.
Example C34_case : compact_page (page_of 128 dmiddle) /\ compact_at (page_of 128 dmiddle) 109 dlays drow
  /\ Forall2 describes dcols dlays /\ t_nullcount dtable = nullable_count dlays
  /\ forall rt after, exists row, row_of rt after dcols dlays drow row
     /\ map c_value row = [VInt 5; VNil; VNil; VStr (txt "xy"); VStr (repeat 97 300); VStr (txt "NULL")].
Proof.
  split; [|split; [|split; [|split]]].
  - destruct (page_of_image 128 dmiddle) as [H1 H2]; [lia|apply bytes_check; reflexivity|cbv; discriminate|]. split; [exact H1|rewrite H2; lia].
  - exists (repeat 0 42 ++ [128] ++ repeat 0 57), (repeat 0 5), (repeat 0 (Z.to_nat (16284 - zlen dmiddle))).
    split; [unfold page_of, dmiddle; rewrite <- !app_assoc; reflexivity|]. split; [cbv; discriminate|].
    split; [reflexivity|]. split; [reflexivity|]. repeat constructor.
  - solve_describes.
  - reflexivity.
  - intros rt after. eexists. split.
    + unfold dcols, dlays, drow.
      eapply row_quiet; [discriminate|exact (int_five rt _)|].
      do 2 (eapply row_quiet; [discriminate|reflexivity|]).
      do 2 (eapply row_quiet; [discriminate|apply C19_text_exact; right; right; left; reflexivity|]). apply row_null. constructor.
    + reflexivity.
Qed.

(** C35: false for latin1 VARCHAR columns (main type 1), and for fixed-size
    character sets of main type 13; with the former a stored row is misread. *)
Definition vcols : list Column :=
  [ dcol "id" 6 3 4 false; dcol "DB_TRX_ID" 0 0 6 false; dcol "DB_ROLL_PTR" 0 0 7 false; dcol "v" 1 15 10 false ].
Definition vlays : list layout := [ fixed 4; fixed 6; fixed 7; inno_layout 1 10 false true ].
Definition vrow : list stored :=
  [ FBytes [128; 0; 0; 5]; FBytes (repeat 1 6); FBytes (repeat 2 7); FBytes (txt "abc") ].
Definition vmiddle (ls : list layout) (fs : list stored) : list Z := rev (lengths ls fs) ++ repeat 0 5 ++ body fs.
Lemma vmiddle_at ls fs format : nullable_count ls = 0 -> Forall2 fits ls fs ->
  compact_at (page_of format (vmiddle ls fs)) (105 + zlen (lengths ls fs)) ls fs.
Proof.
  intros Hn HF. exists (repeat 0 42 ++ [format] ++ repeat 0 57), (repeat 0 5), (repeat 0 (Z.to_nat (16284 - zlen (vmiddle ls fs)))).
  rewrite Hn. change (Z.to_nat ((0 + 7) / 8)) with 0%nat. cbn [be].
  split; [unfold page_of at 1, vmiddle at 1; rewrite <- !app_assoc; reflexivity|].
  split; [reflexivity || (cbv; discriminate)|]. split; [reflexivity|]. split; [|exact HF].
  change (zlen (repeat 0 42 ++ [format] ++ repeat 0 57)) with 100. change ((0 + 7) / 8) with 0. lia.
Qed.
Theorem C35_fixed_length_refuted :
  (exists mtype len, l_fixed (inno_layout mtype len false true) = None /\ GetFixedLength mtype len <> 0) /\
  (exists mtype len, l_fixed (inno_layout mtype len false true) = Some len /\ len <> 0 /\ GetFixedLength mtype len = 0) /\
  exists page, compact_page page /\ compact_at page 106 vlays vrow /\
    forall rt tm, mget tm 7 = Some (mkTable (txt "d") (txt "t") vcols [] 0 0) ->
    exists row, parsePage_record rt tm page 106 vcols = ([], Ok (Some row))
    /\ nth_error vrow 3 = Some (FBytes (txt "abc")) /\ nth_error (map c_value row) 3 <> Some (VStr (txt "abc")).
Proof.
  split; [exists 1, 10; split; [reflexivity|discriminate]|].
  split; [exists 13, 10; split; [reflexivity|split; [discriminate|reflexivity]]|].
  exists (page_of 128 (vmiddle vlays vrow)). split; [|split].
  - destruct (page_of_image 128 (vmiddle vlays vrow)) as [H1 H2]; [lia|apply bytes_check; reflexivity|cbv; discriminate|]. split; [exact H1|rewrite H2; lia].
  - apply (vmiddle_at vlays vrow); [reflexivity|repeat constructor].
  - intros rt tm Ht. unfold parsePage_record. cbn [c_table dcol vcols index len List.length Z.of_nat nth_error Z.to_nat bind].
    change (index vcols 0) with (Ok (dcol "id" 6 3 4 false)). cbn [bind c_table dcol]. rewrite Ht.
    eexists. split; [vm_compute; reflexivity|]. split; [reflexivity|]. vm_compute. discriminate.
Qed.
Print Assumptions C35_fixed_length_refuted.
(** Full statement: all types and lengths.  Proved: for which of InnoDB's
    types, lengths and character sets the decision is InnoDB's. *)
Theorem C35_fixed_length_partial : forall mtype len nullable one_size, In mtype [1; 2; 3; 4; 5; 6; 8; 9; 10; 11; 12; 13] ->
  (GetFixedLength mtype len = match l_fixed (inno_layout mtype len nullable one_size) with Some n => n | None => 0 end
   <-> len = 0 \/ (~ In mtype [1; 4; 11] /\ (mtype = 13 -> one_size = false))).
Proof.
  intros mtype n nullable one H. unfold GetFixedLength, inno_layout.
  repeat (destruct H as [<-|H]; [cbn; try destruct one; cbn; intuition (try lia; try discriminate)|]). destruct H.
Qed.
Print Assumptions C35_fixed_length_partial.
(** ... and then the descriptor is one C34 applies to. *)
Theorem C35_described_partial : forall c one_size,
  In (c_type c) [2; 3; 6; 8; 9; 10] /\ c_len c <> 0 \/ In (c_type c) [5; 12] \/ (c_type c = 13 /\ one_size = false) ->
  describes c (inno_layout (c_type c) (c_len c) (c_null c) one_size).
Proof.
  intros c one H. unfold describes, inno_layout. cbn [l_nullable l_fixed l_big]. split; [reflexivity|].
  destruct H as [[H Hl]|[H|[H ->]]].
  - replace (existsb (Z.eqb (c_type c)) [2; 3; 6; 8; 9; 10]) with true.
    2:{ symmetry. apply existsb_exists. exists (c_type c). split; [exact H|apply Z.eqb_refl]. }
    cbn [orb]. split; [exact Hl|]. split; [reflexivity|]. cbn in *. intuition lia.
  - destruct H as [<-|[<-|[]]]; cbn; (split; [tauto|]); rewrite ?orb_true_r, ?orb_false_r; intuition (try lia).
  - rewrite H. cbn. split; [tauto|]. rewrite orb_false_r. intuition (try lia).
Qed.
Print Assumptions C35_described_partial.
Example C35_case : describes (dcol "b" 12 15 600 true) (inno_layout 12 600 true false)
  /\ length_bytes (inno_layout 12 600 true false) (FBytes (repeat 97 300)) = [129; 44].
Proof. split; [apply (C35_described_partial (dcol "b" 12 15 600 true)); cbn; tauto|reflexivity]. Qed.

(** C36: false; the dictionary gives VARBINARY columns the length 0, so that
    the second length byte is not read. *)
Definition bcols : list Column :=
  [ dcol "id" 6 3 4 false; dcol "DB_TRX_ID" 0 0 6 false; dcol "DB_ROLL_PTR" 0 0 7 false; dcol "v" 4 15 0 false ].
Definition blays : list layout := [ fixed 4; fixed 6; fixed 7; inno_layout 4 300 false false ].
Definition brow : list stored :=
  [ FBytes [128; 0; 0; 5]; FBytes (repeat 1 6); FBytes (repeat 2 7); FBytes (repeat 200 200) ].
Theorem C36_varbinary_refuted : exists page, compact_page page /\ compact_at page 107 blays brow /\
  forall rt tm, mget tm 7 = Some (mkTable (txt "d") (txt "t") bcols [] 0 0) ->
  exists row h, parsePage_record rt tm page 107 bcols = ([], Ok (Some row))
    /\ nth_error (map c_value row) 3 = Some (VStr h) /\ unhex h <> Some (repeat 200 200).
Proof.
  exists (page_of 128 (vmiddle blays brow)). split; [|split].
  - destruct (page_of_image 128 (vmiddle blays brow)) as [H1 H2]; [lia|apply bytes_check; reflexivity|cbv; discriminate|]. split; [exact H1|rewrite H2; lia].
  - apply (vmiddle_at blays brow); [reflexivity|repeat constructor].
  - intros rt tm Ht. unfold parsePage_record.
    change (index bcols 0) with (Ok (dcol "id" 6 3 4 false)). cbn [bind c_table dcol]. rewrite Ht.
    eexists. eexists. split; [vm_compute; reflexivity|]. split; [reflexivity|]. vm_compute. discriminate.
Qed.
Print Assumptions C36_varbinary_refuted.
(** More: whatever the table and the row, such a value in the last column is
    cut to 128 bytes and one for each 256 bytes of its length. *)
Lemma lengths_snoc : forall ls fs l f, List.length ls = List.length fs -> lengths (ls ++ [l]) (fs ++ [f]) = lengths ls fs ++ length_bytes l f.
Proof.
  induction ls as [|l0 ls IH]; intros [|f0 fs] l f H; try discriminate; [cbn; now rewrite app_nil_r|].
  cbn [lengths app]. rewrite IH by (now injection H). now rewrite app_assoc.
Qed.
Lemma flags_snoc : forall ls fs l f l' f', List.length ls = List.length fs -> l_nullable l = l_nullable l' -> is_null f = is_null f' ->
  null_flags (ls ++ [l]) (fs ++ [f]) = null_flags (ls ++ [l']) (fs ++ [f']).
Proof.
  induction ls as [|l0 ls IH]; intros [|f0 fs] l f l' f' H H1 H2; try discriminate; [cbn; now rewrite H1, H2|].
  cbn [null_flags app]. rewrite (IH fs l f l' f') by (assumption || now injection H). reflexivity.
Qed.
Lemma count_snoc ls l l' : l_nullable l = l_nullable l' -> nullable_count (ls ++ [l]) = nullable_count (ls ++ [l']).
Proof. intro H. unfold nullable_count. rewrite !filter_app. cbn [filter]. rewrite H. destruct (l_nullable l'); unfold zlen; rewrite !app_length; reflexivity. Qed.
Lemma row_snoc rt after c l f v bin : f <> FNull ->
  ParseData rt (c_type c) (c_mysql c) (content f ++ after) (zlen (content f)) (match l_fixed l with Some n => n | None => 0 end) (c_unsigned c) (c_binary c) = ([], Ok (v, bin)) ->
  forall cols ls fs row, row_of rt (content f ++ after) cols ls fs row ->
  row_of rt after (cols ++ [c]) (ls ++ [l]) (fs ++ [f]) (row ++ [set_value c v bin]).
Proof.
  intros Hf E. induction 1 as [|c' cs l' ls1 fs1 r _ IH|c' cs l' ls1 f' fs1 v' bin' r Hf' E' _ IH]; cbn [app].
  - eapply row_quiet; [exact Hf|exact E|constructor].
  - apply row_null, IH.
  - eapply row_val; [exact Hf'| |exact IH]. unfold body. rewrite flat_map_app. cbn [flat_map]. rewrite app_nil_r. rewrite <- app_assoc. exact E'.
Qed.
Lemma remarks_app : forall cols fs cols2 fs2, List.length cols = List.length fs ->
  remarks (cols ++ cols2) (fs ++ fs2) = remarks cols fs ++ remarks cols2 fs2.
Proof.
  induction cols as [|c cols IH]; intros [|f fs] cols2 fs2 H; try discriminate; [reflexivity|]. cbn [app remarks].
  rewrite IH by (now injection H). destruct f; [reflexivity|..]; apply app_assoc.
Qed.
Theorem C36_last_refuted : forall rt tm page off cols c ls l fs v table c0 row,
  compact_page page -> compact_at page off (ls ++ [l]) (fs ++ [FBytes v]) -> 128 <= zlen v ->
  Forall2 describes cols ls -> l_fixed l = None -> l_big l = true ->
  c_type c = 4 -> c_mysql c = 15 -> c_len c = 0 -> c_null c = l_nullable l ->
  Forall2 same_column (cols ++ [c]) (t_columns table) -> t_nullcount table = nullable_count (ls ++ [l]) ->
  (2 <= List.length cols)%nat -> hd_error cols = Some c0 -> mget tm (c_table c0) = Some table ->
  row_of rt (skipn (Z.to_nat (off + zlen (body fs))) page) cols ls fs row ->
  exists h, parsePage_record rt tm page off (cols ++ [c]) = (remarks cols fs, Ok (Some (row ++ [set_value c (VStr h) true])))
    /\ unhex h = Some (firstn (Z.to_nat (128 + zlen v / 256)) v)
    /\ (128 < zlen v -> unhex h <> Some v).
Proof.
  intros rt tm page off cols c ls l fs v table c0 row Hp Hat Hv HD Hl1 Hl2 Hc1 Hc2 Hc3 Hc4 HS Hn H3 H0 Ht HR.
  pose proof Hat as (pre & header & post & Epage & Hpre & Hhd & Hoff & HF).
  assert (Hll : List.length ls = List.length fs).
  { apply forall2_length in HF. rewrite !app_length in HF. cbn in HF. lia. }
  assert (Hfit : zlen v < 2 ^ 14).
  { apply Forall2_app_inv_l in HF. destruct HF as [a [b [_ [HF E]]]]. inversion HF as [|? y ? ? Hy Hr]; subst. inversion Hr; subst.
    apply app_inj_tail in E. destruct E as [_ E]. subst y. unfold fits in Hy. rewrite Hl1, Hl2 in Hy. exact Hy. }
  assert (Hdiv : 0 <= zlen v / 256 < 64) by (split; [apply Z.div_pos; lia|apply Z.div_lt_upper_bound; lia]).
  assert (Hcut : 128 + zlen v / 256 <= zlen v).
  { pose proof (Z.div_mod (zlen v) 256 ltac:(lia)) as E. pose proof (Z.mod_pos_bound (zlen v) 256 ltac:(lia)). lia. }
  set (n := Z.to_nat (128 + zlen v / 256)) in *. set (w := firstn n v).
  assert (Hw : zlen w = 128 + zlen v / 256) by (unfold w, zlen in *; rewrite firstn_length_le; lia).
  set (l' := mkLayout (l_nullable l) None false).
  assert (Eb : length_bytes l (FBytes v) = [128 + zlen v / 256; zlen v mod 256]).
  { unfold length_bytes. rewrite Hl1, Hl2. replace (128 <=? zlen v) with true by lia. reflexivity. }
  assert (Eb' : length_bytes l' (FBytes w) = [128 + zlen v / 256]) by (cbn; now rewrite Hw).
  assert (Ebody : body (fs ++ [FBytes v]) = body (fs ++ [FBytes w]) ++ skipn n v).
  { unfold body. rewrite !flat_map_app. cbn. rewrite !app_nil_r, <- app_assoc. unfold w. now rewrite firstn_skipn. }
  assert (Hat' : compact_at page off (ls ++ [l']) (fs ++ [FBytes w])).
  { exists (pre ++ [zlen v mod 256]), header, (skipn n v ++ post). rewrite (count_snoc ls l' l) by reflexivity.
    rewrite (flags_snoc ls fs l' (FBytes w) l (FBytes v)) by (assumption || reflexivity).
    rewrite lengths_snoc in * by exact Hll. rewrite Eb in *. rewrite Eb'. repeat split; try assumption.
    - rewrite Epage, Ebody, !rev_app_distr. cbn [rev app]. now rewrite <- !app_assoc.
    - unfold zlen in *. rewrite app_length. lia.
    - rewrite Hoff. unfold zlen. rewrite !app_length. cbn [List.length]. lia.
    - apply Forall2_app_inv_l in HF. destruct HF as [a [b [HF [HG E]]]]. inversion HG as [|? y ? ? Hy Hr]; subst. inversion Hr; subst.
      apply app_inj_tail in E. destruct E as [-> _]. apply Forall2_app; [exact HF|]. constructor; [|constructor].
      unfold fits. cbn [l' l_fixed l_big]. rewrite Hw. lia. }
  assert (HD' : Forall2 describes (cols ++ [c]) (ls ++ [l'])).
  { apply Forall2_app; [exact HD|]. constructor; [|constructor]. split; [exact Hc4|]. cbn [l' l_fixed l_big]. split; [now right|].
    rewrite Hc1, Hc3. split; [discriminate|lia]. }
  destruct (compact_skip page off _ _ Hat') as [post' [Hsk [Ho0 _]]].
  assert (Hwb : all_bytes w).
  { destruct Hp as [[_ Hb] _]. apply (all_bytes_skipn (Z.to_nat off)) in Hb. rewrite Hsk in Hb. apply all_bytes_app in Hb. destruct Hb as [Hb _].
    unfold body in Hb. rewrite flat_map_app in Hb. apply all_bytes_app in Hb. cbn in Hb. rewrite app_nil_r in Hb. exact (proj2 Hb). }
  destruct (C21_binary_hex rt 4 15 w (skipn (Z.to_nat (off + zlen (body (fs ++ [FBytes w])))) page) 0 (c_unsigned c) (c_binary c) Hwb) as [h [Eh Hu]].
  { right. left. split; reflexivity. }
  exists h. split; [|split; [exact Hu|]].
  - replace (remarks cols fs) with (remarks (cols ++ [c]) (fs ++ [FBytes w])).
    2: { rewrite remarks_app by (apply forall2_length in HD; lia). cbn [remarks]. unfold remark. rewrite Hc1. cbn. now rewrite app_nil_r. }
    apply (C34_row rt tm page off (cols ++ [c]) (ls ++ [l']) (fs ++ [FBytes w]) table c0); try assumption.
    + now apply (same_columns_describe (cols ++ [c])).
    + rewrite Hn. now apply count_snoc.
    + rewrite app_length. cbn. lia.
    + destruct cols; [discriminate|exact H0].
    + apply row_snoc; [discriminate| |].
      * cbn [content l' l_fixed]. rewrite Hc1, Hc2. exact Eh.
      * cbn [content]. replace (w ++ _) with (skipn (Z.to_nat (off + zlen (body fs))) page); [exact HR|].
        assert (Ha : forall k, 0 <= k -> skipn (Z.to_nat (off + k)) page = skipn (Z.to_nat k) (skipn (Z.to_nat off) page)).
        { intros k Hk. rewrite skipn_skipn. f_equal. lia. }
        rewrite !Ha by (unfold zlen; lia). rewrite Hsk. unfold zlen. rewrite !Nat2Z.id.
        rewrite (skipn_app_exact (List.length (body (fs ++ [FBytes w])))) by reflexivity.
        unfold body. rewrite flat_map_app, <- app_assoc, skipn_app_exact by reflexivity. cbn. now rewrite app_nil_r.
  - intros Hlt E. rewrite Hu in E. injection E as E. apply (f_equal (@zlen Z)) in E. rewrite Hw in E.
    pose proof (Z.div_mod (zlen v) 256 ltac:(lia)) as E2. pose proof (Z.mod_pos_bound (zlen v) 256 ltac:(lia)). lia.
Qed.
Print Assumptions C36_last_refuted.
Example C36_last_case : compact_at (page_of 128 (vmiddle blays brow)) 107 (firstn 3 blays ++ [inno_layout 4 300 false false]) (firstn 3 brow ++ [FBytes (repeat 200 200)])
  /\ Forall2 describes (firstn 3 bcols) (firstn 3 blays) /\ bcols = firstn 3 bcols ++ [dcol "v" 4 15 0 false]
  /\ forall rt after, exists row, row_of rt after (firstn 3 bcols) (firstn 3 blays) (firstn 3 brow) row.
Proof.
  split; [apply (vmiddle_at blays brow); [reflexivity|repeat constructor]|]. split; [solve_describes|]. split; [reflexivity|].
  intros rt after. eexists. cbn [firstn bcols blays brow].
  eapply row_quiet; [discriminate|exact (int_five rt _)|].
  do 2 (eapply row_quiet; [discriminate|reflexivity|]). constructor.
Qed.
(** Full statement: all values.  Proved: values below 128 bytes, which have a
    one-byte length whatever the declared length. *)
Inductive described : list Column -> list layout -> list stored -> Prop :=
| ds_nil : described [] [] []
| ds_plain c cs l ls f fs : describes c l -> described cs ls fs -> described (c :: cs) (l :: ls) (f :: fs)
| ds_short c cs l ls f fs : c_null c = l_nullable l -> c_type c = 4 -> c_len c = 0 -> l_fixed l = None ->
    (f = FNull \/ exists b, f = FBytes b /\ zlen b < 128) ->
    described cs ls fs -> described (c :: cs) (l :: ls) (f :: fs).
Lemma described_narrowed cols ls fs : described cols ls fs -> exists ls', narrowed ls fs ls' /\ Forall2 describes cols ls'.
Proof.
  induction 1 as [|c cs l ls f fs Hd _ [ls' [IH1 IH2]]|c cs l ls f fs H1 H2 H3 H4 H5 _ [ls' [IH1 IH2]]].
  - exists []. split; constructor.
  - exists (l :: ls'). split; constructor; assumption.
  - exists (mkLayout (l_nullable l) (l_fixed l) false :: ls'). split; constructor; try assumption.
    + destruct H5 as [->|[b [-> Hb]]]; [exact I|exact Hb].
    + split; [exact H1|]. cbn [l_fixed l_big]. rewrite H4, H2, H3. cbn. intuition (try lia; try discriminate).
Qed.
Theorem C36_varbinary_partial : forall rt tm page off cols ls fs table c0 row,
  compact_page page -> compact_at page off ls fs -> described cols ls fs ->
  Forall2 same_column cols (t_columns table) -> t_nullcount table = nullable_count ls ->
  (3 <= List.length cols)%nat -> hd_error cols = Some c0 -> mget tm (c_table c0) = Some table ->
  row_of rt (skipn (Z.to_nat (off + zlen (body fs))) page) cols ls fs row ->
  parsePage_record rt tm page off cols = (remarks cols fs, Ok (Some row)).
Proof.
  intros rt tm page off cols ls fs table c0 row H1 H2 H3 H4 H5 H6 H7 H8 HR.
  destruct (described_narrowed _ _ _ H3) as [ls' [HN HD]]. destruct (narrowed_at page off ls fs ls' HN H2) as [Hat Hcount].
  apply (C34_row rt tm page off cols ls' fs table c0); try assumption.
  - now apply (same_columns_describe cols).
  - congruence.
  - exact (narrowed_row _ _ _ _ _ _ _ HN HR).
Qed.
Print Assumptions C36_varbinary_partial.
Definition brow2 : list stored :=
  [ FBytes [128; 0; 0; 5]; FBytes (repeat 1 6); FBytes (repeat 2 7); FBytes (repeat 200 127) ].
Example C36_case : compact_at (page_of 128 (vmiddle blays brow2)) 106 blays brow2 /\ described bcols blays brow2
  /\ forall rt after, exists row h, row_of rt after bcols blays brow2 row
     /\ nth_error (map c_value row) 3 = Some (VStr h) /\ unhex h = Some (repeat 200 127).
Proof.
  split; [apply (vmiddle_at blays brow2); [reflexivity|repeat constructor]|]. split.
  - do 3 (apply ds_plain; [split; [reflexivity|cbn; intuition (try lia; try discriminate)]|]).
    apply ds_short; try reflexivity; [right; eexists; split; reflexivity|constructor].
  - intros rt after. destruct (C21_binary_hex rt 4 15 (repeat 200 127) (body [] ++ after) 0 false false) as [t [E Hu]].
    { apply bytes_check. reflexivity. }
    { right. left. split; reflexivity. }
    eexists. exists t. split.
    + eapply row_quiet; [discriminate|exact (int_five rt _)|].
      do 2 (eapply row_quiet; [discriminate|reflexivity|]).
      eapply row_quiet; [discriminate|exact E|]. constructor.
    + split; [reflexivity|exact Hu].
Qed.

(** C37: false; every NULL of a REDUNDANT record is read as the bytes that
    fill its place. *)
Theorem C37_redundant_null_refuted : exists wide page off cols ls fs,
  redundant_page page /\ redundant_at page off wide fs /\ Forall2 describes cols ls /\ Forall2 rfits ls fs
  /\ nth_error fs 3 = Some (RNull []) /\
  forall rt tm, exists row, parsePage_record rt tm page off cols = ([], Ok (Some row))
    /\ nth_error (map c_value row) 3 = Some (VStr []).
Proof.
  set (fs := [RBytes [128; 0; 0; 5]; RBytes (repeat 1 6); RBytes (repeat 2 7); RNull []]).
  set (ls := [fixed 4; fixed 6; fixed 7; varying true false]).
  set (cols := [dcol "id" 6 3 4 false; dcol "DB_TRX_ID" 0 0 6 false; dcol "DB_ROLL_PTR" 0 0 7 false; dcol "a" 12 15 30 true]).
  set (m := rev (ends (2 ^ 7) 0 fs) ++ [0; 0; 0; 1; 0; 0] ++ rbody fs).
  assert (Hp : redundant_page (page_of 0 m)).
  { destruct (page_of_image 0 m) as [H1 H2]; [lia|apply bytes_check; reflexivity|cbv; discriminate|]. split; [exact H1|rewrite H2; lia]. }
  assert (Ha : redundant_at (page_of 0 m) 110 false fs).
  { exists (repeat 0 42 ++ [0] ++ repeat 0 57), [0; 0; 0; 1; 0; 0], (repeat 0 (Z.to_nat (16284 - zlen m))).
    cbv zeta. split; [unfold page_of, m; rewrite <- !app_assoc; reflexivity|]. repeat split. }
  assert (HC : Forall2 describes cols ls) by solve_describes.
  assert (HF : Forall2 rfits ls fs) by repeat constructor.
  exists false, (page_of 0 m), 110, cols, ls, fs. repeat (split; [assumption || reflexivity|]).
  intros rt tm. rewrite (record_redundant rt tm (page_of 0 m) 110 false cols ls fs) by (assumption || (cbn; lia)).
  eexists. split; [erewrite row_of_values; [reflexivity|]|].
  - unfold cols, ls, fs. cbn [map plain rcontent].
    eapply row_quiet; [discriminate|exact (int_five rt _)|].
    do 2 (eapply row_quiet; [discriminate|reflexivity|]).
    eapply row_quiet; [discriminate|apply C19_text_exact; tauto|]. constructor.
  - reflexivity.
Qed.
Print Assumptions C37_redundant_null_refuted.
(** Full statement: NULL columns are reported as NULL.  Proved: the row is
    decoded as if each NULL column held its filler; in particular all other
    columns are exact. *)
Definition as_filler (f : rstored) : stored := FBytes (rcontent f).
Theorem C37_redundant_null_partial : forall rt tm page off wide cols ls fs row,
  redundant_page page -> redundant_at page off wide fs ->
  Forall2 describes cols ls -> Forall2 rfits ls fs -> (3 <= List.length cols)%nat ->
  row_of rt (skipn (Z.to_nat (off + zlen (rbody fs))) page) cols ls (map as_filler fs) row ->
  parsePage_record rt tm page off cols = (remarks cols (map as_filler fs), Ok (Some row)).
Proof.
  intros rt tm page off wide cols ls fs row H1 H2 H3 H4 H5 HR.
  rewrite (record_redundant rt tm page off wide cols ls fs) by assumption.
  change (@zlen) with (@len) in HR. change as_filler with plain in HR. rewrite (row_of_values _ _ _ _ _ _ HR). apply wbind_pure.
Qed.
Print Assumptions C37_redundant_null_partial.

(** More: a NULL text column of a REDUNDANT record is always read as the empty
    string, and a NULL integer column (its place filled with zeros) always as
    the least number of its type. *)
Theorem C37_exact_refuted : forall rt tm page off wide cols ls fs row i pad c,
  redundant_page page -> redundant_at page off wide fs ->
  Forall2 describes cols ls -> Forall2 rfits ls fs -> (3 <= List.length cols)%nat ->
  row_of rt (skipn (Z.to_nat (off + zlen (rbody fs))) page) cols ls (map as_filler fs) row ->
  nth_error fs i = Some (RNull pad) -> nth_error cols i = Some c ->
  parsePage_record rt tm page off cols = (remarks cols (map as_filler fs), Ok (Some row))
  /\ (c_type c = innodb_varmysql -> pad = [] -> nth_error (map c_value row) i = Some (VStr []))
  /\ (forall k, In k [1; 2; 4; 8]%nat -> c_type c = innodb_int -> c_mysql c <> field_date -> c_mysql c <> field_year ->
      c_len c = Z.of_nat k -> pad = repeat 0 k ->
      exists v, nth_error (map c_value row) i = Some v /\
        (if c_unsigned c then v = VUint 0 else v = VInt (- 2 ^ (8 * Z.of_nat k - 1)) \/ v = VUint (- 2 ^ (8 * Z.of_nat k - 1)))).
Proof.
  intros rt tm page off wide cols ls fs row i pad c H1 H2 H3 H4 H5 HR Hi Hc.
  split; [now apply (C37_redundant_null_partial rt tm page off wide cols ls fs)|].
  assert (Hm : nth_error (map as_filler fs) i = Some (FBytes pad)) by (rewrite nth_error_map, Hi; reflexivity).
  set (after := skipn _ page) in HR. clearbody after. clear - HR Hm Hc H3. revert i Hm Hc H3. remember (map as_filler fs) as gs eqn:Eg. clear Eg.
  induction HR as [|c' cs l ls1 fs1 r _ IH|c' cs l ls1 f fs1 v bin r Hf E _ IH]; intros [|i] Hi Hc HD; try discriminate; cbn [nth_error map] in *;
    inversion HD as [|? ? ? ? Hd HD']; subst.
  - now apply IH.
  - injection Hi as ->. injection Hc as ->. cbn [content c_value] in *. split.
    + intros Ht ->. rewrite Ht in E. change (zlen []) with (len (@nil Z)) in E. rewrite (C19_text_exact rt innodb_varmysql (c_mysql c) []) in E by tauto. injection E as _ <- _. reflexivity.
    + intros k Hk Ht Hm1 Hm2 Hl ->. exists v. split; [reflexivity|].
      assert (El : match l_fixed l with Some n => n | None => 0 end = Z.of_nat k).
      { destruct Hd as [_ Hd]. destruct (l_fixed l); [now destruct Hd as [_ [<- _]]|]. destruct Hd as [[Hd|Hd] _].
        - rewrite Ht in Hd. cbn in Hd. unfold innodb_int in Hd. intuition lia.
        - rewrite Hd in Hl. cbn in Hk. exfalso. intuition (subst; discriminate). }
      rewrite El, Ht in E. unfold zlen in E. rewrite repeat_length in E.
      assert (Ez : repeat 0 k = be k 0) by (cbn in Hk; repeat (destruct Hk as [<-|Hk]; [reflexivity|]); destruct Hk).
      assert (Hpos : 0 < 256 ^ Z.of_nat k) by (apply Z.pow_pos_nonneg; lia).
      rewrite Ez in E. destruct (c_unsigned c).
      * change (be k 0) with (store_uint k 0) in E. rewrite (proj1 (C10_unsigned_int rt (c_mysql c) k 0 _ _ Hk Hm1 Hm2 ltac:(lia))) in E. now injection E as _ <- _.
      * assert (Ei : be k 0 = store_int k (- 2 ^ (8 * Z.of_nat k - 1))) by (unfold store_int; f_equal; lia).
        rewrite Ei in E. destruct (C09_signed_int rt (c_mysql c) k (- 2 ^ (8 * Z.of_nat k - 1)) (body fs1 ++ after) (c_binary c)) as [g [Eg [Hg _]]]; try assumption.
        -- cbn in Hk |- *. tauto.
        -- assert (0 < 2 ^ (8 * Z.of_nat k - 1)) by (apply Z.pow_pos_nonneg; cbn in Hk; intuition lia). lia.
        -- rewrite Eg in E. injection E as _ <- _. exact Hg.
  - now apply IH.
Qed.
Print Assumptions C37_exact_refuted.
(** A record with a NULL text column meets the hypotheses. *)
Example C37_case : let fs := [RBytes [128; 0; 0; 5]; RBytes (repeat 1 6); RBytes (repeat 2 7); RNull []] in
  let cols := [dcol "id" 6 3 4 false; dcol "DB_TRX_ID" 0 0 6 false; dcol "DB_ROLL_PTR" 0 0 7 false; dcol "a" 12 15 30 true] in
  Forall2 describes cols [fixed 4; fixed 6; fixed 7; varying true false] /\ nth_error fs 3 = Some (RNull [])
  /\ forall rt after, exists row, row_of rt after cols [fixed 4; fixed 6; fixed 7; varying true false] (map as_filler fs) row.
Proof.
  cbv zeta. split; [solve_describes|]. split; [reflexivity|]. intros rt after. eexists. cbn [map as_filler rcontent].
  eapply row_quiet; [discriminate|exact (int_five rt _)|].
  do 2 (eapply row_quiet; [discriminate|reflexivity|]).
  eapply row_quiet; [discriminate|apply C19_text_exact; tauto|]. constructor.
Qed.

(** C38: records without NULLs, field by field and as rows. *)
Theorem C38_fields : forall page off wide vs,
  redundant_page page -> redundant_at page off wide (map RBytes vs) -> (3 <= List.length vs)%nat ->
  exists offsets, ibRecInitOffsetsOld page off (zeros (List.length vs * 2)) (List.length vs) = Ok offsets /\
  forall i v, nth_error vs i = Some v -> exists rest,
    RecGetNthField (skipn (Z.to_nat off) page) offsets (Z.of_nat i) = Ok (v ++ rest, zlen v).
Proof.
  intros page off wide vs [[Hpl Hpb] Hcp] Hat Hn. change (@zlen) with (@len) in *.
  set (fs := map RBytes vs) in *. assert (Hlen : List.length fs = List.length vs) by apply map_length.
  destruct (redundant_skip page off wide fs Hat) as [post [Hsk [Ho0 [Hle Hpost]]]].
  destruct (offsets_old page off wide fs Hpb Hat) as [x E]; [lia|lia|]. rewrite Hlen in E.
  eexists. split; [exact E|]. intros i v Hv. rewrite Hsk. exists (body (skipn (S i) (map plain fs)) ++ post).
  assert (Hf : nth_error (map plain fs) i = Some (FBytes v)).
  { unfold fs. rewrite map_map, nth_error_map, Hv. reflexivity. }
  apply (get_field _ _ (map plain fs) post i (FBytes v)); [unfold holds; eauto|exact Hf|rewrite body_plain; lia|now rewrite body_plain].
Qed.
Print Assumptions C38_fields.
Theorem C38_row : forall rt tm page off wide cols ls vs row,
  redundant_page page -> redundant_at page off wide (map RBytes vs) ->
  Forall2 describes cols ls -> Forall2 rfits ls (map RBytes vs) -> (3 <= List.length cols)%nat ->
  row_of rt (skipn (Z.to_nat (off + zlen (List.concat vs))) page) cols ls (map FBytes vs) row ->
  parsePage_record rt tm page off cols = (remarks cols (map FBytes vs), Ok (Some row)).
Proof.
  intros rt tm page off wide cols ls vs row H1 H2 H3 H4 H5 HR.
  replace (map FBytes vs) with (map as_filler (map RBytes vs)) by (rewrite map_map; reflexivity).
  apply (C37_redundant_null_partial rt tm page off wide cols ls (map RBytes vs)); try assumption.
  rewrite map_map. replace (rbody (map RBytes vs)) with (List.concat vs); [exact HR|].
  unfold rbody. induction vs as [|v vs IH]; [reflexivity|]. cbn. f_equal.
  clear. induction vs as [|v vs IH]; [reflexivity|]. cbn. now rewrite IH.
Qed.
Print Assumptions C38_row.
Example C38_case : forall wide, exists page off vs, redundant_page page /\ redundant_at page off wide (map RBytes vs)
  /\ vs = [[128; 0; 0; 5]; repeat 1 6; repeat 2 7; txt "hello"; []].
Proof.
  intro wide. set (vs := [[128; 0; 0; 5]; repeat 1 6; repeat 2 7; txt "hello"; []]). set (fs := map RBytes vs).
  set (os := if wide then flat_map (be 2) (rev (ends (2 ^ 15) 0 fs)) else rev (ends (2 ^ 7) 0 fs)).
  set (m := os ++ [0; 0; 0; if wide then 0 else 1; 0; 0] ++ rbody fs).
  exists (page_of 0 m), (106 + zlen os), vs. split; [|split; [|reflexivity]].
  - destruct (page_of_image 0 m) as [H1 H2]; [lia|apply bytes_check; destruct wide; reflexivity|destruct wide; cbv; discriminate|]. split; [exact H1|rewrite H2; lia].
  - exists (repeat 0 42 ++ [0] ++ repeat 0 57), [0; 0; 0; if wide then 0 else 1; 0; 0], (repeat 0 (Z.to_nat (16284 - zlen m))).
    cbv zeta. fold fs. fold os. split; [unfold page_of, m; rewrite <- !app_assoc; reflexivity|].
    split; [reflexivity|]. split; [destruct wide; reflexivity|]. split; [change (zlen (repeat 0 42 ++ [0] ++ repeat 0 57)) with 100; lia|destruct wide; reflexivity].
Qed.

(** C39: false; a column that would reach beyond the page keeps the value of
    the record decoded before.  Below, two linked records; the second one's
    last column is said to have 100 bytes but only 7 are left in the page. *)
Definition stale_cols : list Column :=
  [ dcol "id" 6 3 4 false; dcol "DB_TRX_ID" 0 0 6 false; dcol "DB_ROLL_PTR" 0 0 7 false; dcol "v" 12 15 200 false ].
(** infimum at 99 links to the record at 109, that one to the record at 16360 *)
Definition stale_page (last : list Z) : list Z :=
  repeat 0 42 ++ [128] ++ repeat 0 54 ++ be 2 10 ++ repeat 0 4
  ++ [3] ++ repeat 0 3 ++ be 2 16251 ++ [128; 0; 0; 1] ++ repeat 1 6 ++ repeat 2 7 ++ txt "abc"
  ++ repeat 0 (Z.to_nat (16354 - 129)) ++ [100] ++ repeat 0 5 ++ [128; 0; 0; 2] ++ repeat 1 6 ++ repeat 2 7 ++ last.
Theorem C39_own_record_refuted : exists page, page_image page /\
  forall rt tm, mget tm 7 = Some (mkTable (txt "d") (txt "t") stale_cols [] 0 0) ->
  (exists r1 r2 cs, parsePage 5 rt tm page stale_cols false 0 = ([], Ok ([r1; r2], cs))
     /\ map c_value r1 = [VInt 1; VNil; VNil; VStr (txt "abc")]
     /\ map c_value r2 = [VInt 2; VNil; VNil; VStr (txt "abc")])
  /\ (exists r, parsePage_record rt tm page 16360 stale_cols = ([], Ok (Some r))
     /\ map c_value r = [VInt 2; VNil; VNil; VNil]).
Proof.
  exists (stale_page (txt "xxxxxxx")). split.
  - split; [vm_compute; reflexivity|apply bytes_check; vm_compute; reflexivity].
  - intros rt tm Ht. 
    assert (Hr : forall off cols, index cols 0 = Ok (hd (dcol "" 0 0 0 false) cols) -> c_table (hd (dcol "" 0 0 0 false) cols) = 7 ->
      parsePage_record rt tm (stale_page (txt "xxxxxxx")) off cols
      = parsePage_record rt [(7, mkTable (txt "d") (txt "t") stale_cols [] 0 0)] (stale_page (txt "xxxxxxx")) off cols).
    { intros off cols Hi Hc. unfold parsePage_record. rewrite Hi. cbn [bind]. rewrite Hc, Ht. reflexivity. }
    split.
    + exists (map (fun cv => set_value (fst cv) (snd cv) false) (combine stale_cols [VInt 1; VNil; VNil; VStr (txt "abc")])).
      exists (map (fun cv => set_value (fst cv) (snd cv) false) (combine stale_cols [VInt 2; VNil; VNil; VStr (txt "abc")])).
      exists (map (fun cv => set_value (fst cv) (snd cv) false) (combine stale_cols [VInt 2; VNil; VNil; VStr (txt "abc")])).
      split; [|split; reflexivity].
      unfold parsePage. replace (PageIsCompact (stale_page (txt "xxxxxxx"))) with (Ok 32768) by (vm_compute; reflexivity).
      rewrite wbind_lift. change (32768 =? 0) with false. cbv iota zeta.
      replace (d <- slice_from (stale_page (txt "xxxxxxx")) (38 + 36 + 2 * 10 + 5 - 2) ;; MatchReadFrom2 d) with (Ok 10) by (vm_compute; reflexivity).
      rewrite wbind_lift. cbn [parsePage_loop].
      change (38 + 36 + 2 * 10 + 5 + 10) with 109. change (38 + 36 + 2 * 10 + 2 * 5 + 8) with 112.
      change ((109 <? 16384 - 6) && negb (109 =? 112)) with true. cbv iota.
      rewrite Hr by reflexivity. 
      match goal with |- context [parsePage_record rt ?m ?p 109 ?c] => replace (parsePage_record rt m p 109 c) with
        (wret (Some (map (fun cv => set_value (fst cv) (snd cv) false) (combine stale_cols [VInt 1; VNil; VNil; VStr (txt "abc")])))) by (vm_compute; reflexivity) end.
      rewrite wbind_ret. cbv iota.
      replace (next_offset (stale_page (txt "xxxxxxx")) 109) with (Ok (Some 16360)) by (vm_compute; reflexivity).
      rewrite wbind_lift. cbv iota. change ((16360 <? 16384 - 6) && negb (16360 =? 112)) with true. cbv iota.
      rewrite Hr by reflexivity.
      match goal with |- context [parsePage_record rt ?m ?p 16360 ?c] => replace (parsePage_record rt m p 16360 c) with
        (wret (Some (map (fun cv => set_value (fst cv) (snd cv) false) (combine stale_cols [VInt 2; VNil; VNil; VStr (txt "abc")])))) by (vm_compute; reflexivity) end.
      rewrite wbind_ret. cbv iota.
      replace (next_offset (stale_page (txt "xxxxxxx")) 16360) with (Ok (@None Z)) by (vm_compute; reflexivity).
      rewrite wbind_lift. reflexivity.
    + exists (map (fun cv => set_value (fst cv) (snd cv) false) (combine stale_cols [VInt 2; VNil; VNil; VNil])).
      split; [|reflexivity]. rewrite Hr by reflexivity. vm_compute. reflexivity.
Qed.
Print Assumptions C39_own_record_refuted.
(** Full statement: all pages.  Proved: for records that lie in the page (COMPACT,
    and REDUNDANT) the row does not depend on the values decoded before. *)
Theorem C39_own_record_partial : forall rt tm page off cols cols' ls fs table c0 c0',
  compact_page page -> compact_at page off ls fs ->
  Forall2 describes cols ls -> Forall2 describes (t_columns table) ls -> t_nullcount table = nullable_count ls ->
  (3 <= List.length cols)%nat -> hd_error cols = Some c0 -> hd_error cols' = Some c0' ->
  mget tm (c_table c0) = Some table -> Forall2 same_column cols cols' ->
  parsePage_record rt tm page off cols = parsePage_record rt tm page off cols'.
Proof.
  intros rt tm page off cols cols' ls fs table c0 c0' H1 H2 H3 H4 H5 H6 H7 H7' H8 HS.
  rewrite (record_compact rt tm page off cols ls fs table c0) by assumption.
  assert (Hc : c_table c0' = c_table c0).
  { inversion HS as [|a b ? ? Hab]; subst; [discriminate|]. cbn in H7, H7'. injection H7 as ->. injection H7' as ->.
    symmetry. apply Hab. }
  rewrite (record_compact rt tm page off cols' ls fs table c0'); try assumption.
  - now rewrite (same_columns_row rt _ cols cols' HS).
  - now apply (same_columns_describe cols).
  - now rewrite <- (forall2_length _ _ _ HS).
  - now rewrite Hc.
Qed.
Print Assumptions C39_own_record_partial.
Theorem C39_redundant_own_record_partial : forall rt tm page off wide cols cols' ls fs,
  redundant_page page -> redundant_at page off wide fs ->
  Forall2 describes cols ls -> Forall2 rfits ls fs -> (3 <= List.length cols)%nat -> Forall2 same_column cols cols' ->
  parsePage_record rt tm page off cols = parsePage_record rt tm page off cols'.
Proof.
  intros rt tm page off wide cols cols' ls fs H1 H2 H3 H4 H5 HS.
  rewrite (record_redundant rt tm page off wide cols ls fs) by assumption.
  rewrite (record_redundant rt tm page off wide cols' ls fs); try assumption.
  - now rewrite (same_columns_row rt _ cols cols' HS).
  - now apply (same_columns_describe cols).
  - now rewrite <- (forall2_length _ _ _ HS).
Qed.
Print Assumptions C39_redundant_own_record_partial.
Example C39_case : compact_at (page_of 128 dmiddle) 109 dlays drow /\ Forall2 describes dcols dlays
  /\ Forall2 same_column dcols (map (fun c => set_value c (VStr (txt "old")) false) dcols)
  /\ dcols <> map (fun c => set_value c (VStr (txt "old")) false) dcols.
Proof.
  split; [apply C34_case|]. split; [apply C34_case|]. split; [repeat constructor|discriminate].
Qed.

(** C51: false; of an externally stored column (InnoDB keeps a prefix in the
    record, then a 20-byte reference, and the rest elsewhere) the tool prints
    the prefix and the reference.  Proved for every such record with text
    columns: the printed value is the column's value only if the part stored
    elsewhere equals the reference. *)
Theorem C51_external_partial : forall rt tm page off cols ls fs table c0 row i prefix reference c,
  compact_page page -> compact_at page off ls fs ->
  Forall2 describes cols ls -> Forall2 describes (t_columns table) ls -> t_nullcount table = nullable_count ls ->
  (3 <= List.length cols)%nat -> hd_error cols = Some c0 -> mget tm (c_table c0) = Some table ->
  row_of rt (skipn (Z.to_nat (off + zlen (body fs))) page) cols ls fs row ->
  nth_error fs i = Some (FExtern (prefix ++ reference)) -> nth_error cols i = Some c ->
  c_type c = 5 -> c_binary c = false ->
  parsePage_record rt tm page off cols = (remarks cols fs, Ok (Some row))
  /\ nth_error (map c_value row) i = Some (VStr (prefix ++ reference)).
Proof.
  intros rt tm page off cols ls fs table c0 row i prefix reference c H1 H2 H3 H4 H5 H6 H7 H8 HR Hi Hc Ht Hb.
  split; [exact (C34_row rt tm page off cols ls fs table c0 row H1 H2 H3 H4 H5 H6 H7 H8 HR)|].
  clear - HR Hi Hc Ht Hb. revert i Hi Hc. induction HR as [|c' cs l ls1 fs1 r _ IH|c' cs l ls1 f fs1 v bin r Hf E _ IH]; intros [|i] Hi Hc; try discriminate; cbn [nth_error map] in *.
  - now apply IH.
  - injection Hi as ->. injection Hc as ->. cbn [content c_value] in *. rewrite Ht, Hb in E.
    rewrite C19_text_exact in E by tauto. injection E as _ <- _. reflexivity.
  - now apply IH.
Qed.
Print Assumptions C51_external_partial.
Theorem C51_external_refuted : forall rt tm page off cols ls fs table c0 row i prefix reference elsewhere c,
  compact_page page -> compact_at page off ls fs ->
  Forall2 describes cols ls -> Forall2 describes (t_columns table) ls -> t_nullcount table = nullable_count ls ->
  (3 <= List.length cols)%nat -> hd_error cols = Some c0 -> mget tm (c_table c0) = Some table ->
  row_of rt (skipn (Z.to_nat (off + zlen (body fs))) page) cols ls fs row ->
  nth_error fs i = Some (FExtern (prefix ++ reference)) -> nth_error cols i = Some c ->
  c_type c = 5 -> c_binary c = false -> elsewhere <> reference ->
  parsePage_record rt tm page off cols = (remarks cols fs, Ok (Some row))
  /\ nth_error (map c_value row) i <> Some (VStr (prefix ++ elsewhere)).
Proof.
  intros rt tm page off cols ls fs table c0 row i prefix reference elsewhere c H1 H2 H3 H4 H5 H6 H7 H8 HR Hi Hc Ht Hb He.
  destruct (C51_external_partial rt tm page off cols ls fs table c0 row i prefix reference c H1 H2 H3 H4 H5 H6 H7 H8 HR Hi Hc Ht Hb) as [E Hv].
  split; [exact E|]. rewrite Hv. intro E2. injection E2 as E2. apply app_inv_head in E2. congruence.
Qed.
Print Assumptions C51_external_refuted.
Definition ecols : list Column :=
  [ dcol "id" 6 3 4 false; dcol "DB_TRX_ID" 0 0 6 false; dcol "DB_ROLL_PTR" 0 0 7 false; dcol "v" 5 252 10 false ].
Definition elays : list layout := [ fixed 4; fixed 6; fixed 7; varying false true ].
Definition erow : list stored :=
  [ FBytes [128; 0; 0; 5]; FBytes (repeat 1 6); FBytes (repeat 2 7); FExtern (repeat 97 768 ++ repeat 3 20) ].
Example C51_case : compact_at (page_of 128 (vmiddle elays erow)) 107 elays erow /\ Forall2 describes ecols elays
  /\ forall rt after, exists row, row_of rt after ecols elays erow row.
Proof.
  split; [apply (vmiddle_at elays erow); [reflexivity|repeat constructor]|]. split; [solve_describes|].
  intros rt after. eexists.
  eapply row_quiet; [discriminate|exact (int_five rt _)|].
  do 2 (eapply row_quiet; [discriminate|reflexivity|]).
  eapply row_quiet; [discriminate|apply C19_text_exact; tauto|]. constructor.
Qed.
