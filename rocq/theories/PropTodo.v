(** Properties C83-C86: the helpers of todo.go. *)
From Coq Require Import ZifyBool.
From Verif Require Import GoBase Utils Ibdata Todo SpecInno SpecText SpecSql SpecRecord SpecPage SpecTodo PBase PWire PValue PPage PSql PFile PTodo.
Local Open Scope list_scope.

(** Undo pages for the examples: headers counting up, the first record at
    [start] with the given undo number and table. *)
Definition undo_page (start undo_no table : Z) : bytes :=
  let front := repeat 0 (Z.to_nat 38) ++ be 2 1 ++ be 2 272 ++ be 2 290 ++ repeat 0 12 ++ be 2 3 ++ be 2 86 ++ repeat 0 26
    ++ be 8 1285 ++ be 8 (2 ^ 40) ++ be 2 1 ++ be 2 start ++ [1; 0] ++ be 8 77 ++ be 2 0 ++ be 2 0 ++ repeat 0 (Z.to_nat 152) in
  let record := be 2 290 ++ [28] ++ enc_much_compressed undo_no ++ enc_much_compressed table in
  front ++ record ++ repeat 0 (Z.to_nat 16384 - List.length (front ++ record)).
Lemma bytes_dec (l : bytes) : forallb (fun b => (0 <=? b) && (b <? 256)) l = true -> Forall (fun b => 0 <= b < 256) l.
Proof. intro H. rewrite forallb_forall in H. apply Forall_forall. intros x Hx. specialize (H x Hx). lia. Qed.
Lemma image_dec (l : bytes) : (zlen l =? 16384) && forallb (fun b => (0 <=? b) && (b <? 256)) l = true -> page_image l.
Proof. intro H. apply andb_prop in H as [H1 H2]. split; [lia|now apply bytes_dec]. Qed.

Lemma page_data p g : page_image p -> parseFilHeader p = Ok g -> pg_data g = skipn (Z.to_nat 38) p.
Proof. intros Hp Hg. rewrite (fil_header p Hp) in Hg. assert (E : forall a b : Page, Ok a = Ok b -> b = a) by (intros a b H; now injection H). now rewrite (E _ _ Hg). Qed.

(** C83: false for identifiers from 2^32 on; see C06. *)
Theorem C83_undo_listing_refuted : exists p g undo_no table lines,
  page_image p /\ parseFilHeader p = Ok g /\ 38 <= first_record p /\ 0 <= undo_no < 2 ^ 64 /\ 0 <= table < 2 ^ 64
  /\ undo_rec_at p (first_record p) 290 28 undo_no table
  /\ ParseUndoPageHeader (pg_data g) = (lines, Ok tt)
  /\ forall line, In line lines -> ~ table_line table line.
Proof.
  set (p := undo_page 272 (2 ^ 32) 5).
  exists p. assert (Hp : page_image p) by (apply image_dec; vm_compute; reflexivity).
  pose proof (fil_header p Hp) as Hg. eexists _, (2 ^ 32), 5, _.
  split; [exact Hp|]. split; [exact Hg|].
  assert (Hf : first_record p = 272) by (vm_compute; reflexivity). rewrite Hf.
  split; [lia|]. split; [lia|]. split; [lia|].
  split. { exists (skipn (Z.to_nat 279) p). vm_compute. reflexivity. }
  split. { cbn [pg_data]. vm_compute. reflexivity. }
  intros line Hin (t & Ht & E).
  assert (E5 : t = fmt_d 5) by (eapply int_text_unique; [exact Ht|apply fmt_d_spec]). subst t. change (fmt_d 5) with [53] in E.
  cbn in E. subst line. cbn [In] in Hin. repeat (destruct Hin as [Hin|Hin]; [discriminate Hin|]). exact Hin.
Qed.
Print Assumptions C83_undo_listing_refuted.
(** Full statement: for every undo page the listing gives every header field
    and the first record's next offset, position and table id.  Proved for identifiers below
    2^32; missing (false): larger undo numbers or table ids. *)
Lemma listing p g next ty undo_no behind tb rest : page_image p -> parseFilHeader p = Ok g -> 38 <= first_record p <= 16384 ->
  0 <= next < 2 ^ 16 -> 0 <= undo_no < 2 ^ 64 -> 0 <= tb < 2 ^ 64 ->
  skipn (Z.to_nat (first_record p)) p = be 2 next ++ [ty] ++ enc_much_compressed undo_no ++ behind ->
  skipn (Z.to_nat (len (enc_compressed (undo_no mod 2 ^ 32)))) (enc_much_compressed undo_no ++ behind) = enc_much_compressed tb ++ rest ->
  len (enc_compressed (undo_no mod 2 ^ 32)) <= len (enc_much_compressed undo_no ++ behind) ->
  exists lines l1 l2, ParseUndoPageHeader (pg_data g) = (lines ++ [l1; l2], Ok tt)
  /\ Forall2 (field_line p) undo_fields lines
  /\ pair_line next (first_record p - 38 + 2) l1 /\ table_line (tb mod 2 ^ 32) l2.
Proof.
  intros Hp Hg Hs Hn Hu Ht Hr Em Lm.
  rewrite (page_data p g Hp Hg).
  pose proof Hp as [Hl Hb]. change (zlen p) with (len p) in Hl.
  assert (Hd : len (skipn (Z.to_nat 38) p) = 16346) by (rewrite len_skipn; lia).
  assert (Hs' : field (skipn (Z.to_nat 38) p) 66 2 = first_record p) by (rewrite field_skip by lia; reflexivity).
  assert (Hb' : all_bytes (skipn (Z.to_nat 38) p)) by now apply all_bytes_skipn.
  rewrite undo_split, Hs' by assumption.
  rewrite (tail_record (skipn (Z.to_nat 38) p) (first_record p) next ty undo_no behind tb rest (len (enc_compressed (undo_no mod 2 ^ 32)))); try assumption; try reflexivity; try lia.
  2:{ rewrite skipn_skipn. replace (Z.to_nat 38 + Z.to_nat (first_record p - 38))%nat with (Z.to_nat (first_record p)) by lia. exact Hr. }
  cbn [fst snd]. exists (undo_lines_of (skipn (Z.to_nat 38) p)). eexists _, _. split; [reflexivity|]. split; [exact (field_lines p Hp)|].
  split; [|eexists; split; [apply fmt_d_spec|reflexivity]].
  eexists _, _. split; [apply fmt_d_spec|]. split; [apply fmt_d_spec|]. replace (first_record p - 38 + 2) with (first_record p - 36) by lia. reflexivity.
Qed.
Lemma listing_small p g next ty undo_no table : page_image p -> parseFilHeader p = Ok g -> 38 <= first_record p <= 16384 ->
  0 <= next < 2 ^ 16 -> 0 <= undo_no < 2 ^ 32 -> 0 <= table < 2 ^ 64 -> undo_rec_at p (first_record p) next ty undo_no table ->
  exists lines l1 l2, ParseUndoPageHeader (pg_data g) = (lines ++ [l1; l2], Ok tt)
  /\ Forall2 (field_line p) undo_fields lines
  /\ pair_line next (first_record p - 38 + 2) l1 /\ table_line (table mod 2 ^ 32) l2.
Proof.
  intros Hp Hg Hs Hn Hu Ht [rest Hr].
  assert (S0 : enc_much_compressed undo_no = enc_compressed undo_no) by (unfold enc_much_compressed; destruct (Z.ltb_spec undo_no (2 ^ 32)); [reflexivity|lia]).
  apply (listing p g next ty undo_no (enc_much_compressed table ++ rest) table rest); try assumption; try lia; rewrite Z.mod_small by lia; rewrite S0.
  - unfold len. rewrite Nat2Z.id. apply skipn_app_len.
  - rewrite len_app. pose proof (len_nonneg (enc_much_compressed table ++ rest)). lia.
Qed.
Theorem C83_undo_listing_partial : forall p g next ty undo_no table,
  page_image p -> parseFilHeader p = Ok g -> 38 <= first_record p <= 16384 ->
  0 <= next < 2 ^ 16 -> 0 <= undo_no < 2 ^ 32 -> 0 <= table < 2 ^ 32 ->
  undo_rec_at p (first_record p) next ty undo_no table ->
  exists lines l1 l2, ParseUndoPageHeader (pg_data g) = (lines ++ [l1; l2], Ok tt)
  /\ Forall2 (field_line p) undo_fields lines
  /\ pair_line next (first_record p - 38 + 2) l1 /\ table_line table l2.
Proof.
  intros p g next ty undo_no table Hp Hg Hs Hn Hu Ht Hr.
  destruct (listing_small p g next ty undo_no table) as [lines [l1 [l2 H]]]; try assumption; [lia|]. rewrite Z.mod_small in H by lia. now exists lines, l1, l2.
Qed.
Print Assumptions C83_undo_listing_partial.
Lemma table_line_inj a b line : table_line a line -> table_line b line -> 0 <= a -> 0 <= b -> a = b.
Proof.
  intros [x [Hx ->]] [y [Hy E]] Ha Hb. apply app_inv_head in E. subst y. destruct Hx as [[_ [_ [Hx _]]]|[Hx _]]; [|lia]. destruct Hy as [[_ [_ [Hy _]]]|[Hy _]]; [|lia]. congruence.
Qed.
(** For every larger table id the listing gives its low word; for every larger
    undo number whose low word is below 128, it gives the undo number's high
    word as the table id. *)
Theorem C83_exact_refuted : forall p g next ty undo_no table,
  page_image p -> parseFilHeader p = Ok g -> 38 <= first_record p <= 16384 ->
  0 <= next < 2 ^ 16 -> 0 <= undo_no < 2 ^ 64 -> 0 <= table < 2 ^ 64 ->
  undo_rec_at p (first_record p) next ty undo_no table -> undo_no mod 2 ^ 32 < 128 \/ undo_no < 2 ^ 32 ->
  let shown := if undo_no <? 2 ^ 32 then table mod 2 ^ 32 else undo_no / 2 ^ 32 in
  exists lines l1 l2, ParseUndoPageHeader (pg_data g) = (lines ++ [l1; l2], Ok tt)
  /\ Forall2 (field_line p) undo_fields lines
  /\ pair_line next (first_record p - 38 + 2) l1 /\ table_line shown l2 /\ (table_line table l2 <-> table = shown).
Proof.
  intros p g next ty undo_no table Hp Hg Hs Hn Hu Ht Hr Hlow shown.
  assert (HX : 0 <= shown /\ exists lines l1 l2, ParseUndoPageHeader (pg_data g) = (lines ++ [l1; l2], Ok tt)
    /\ Forall2 (field_line p) undo_fields lines /\ pair_line next (first_record p - 38 + 2) l1 /\ table_line shown l2).
  { unfold shown. destruct (Z.ltb_spec undo_no (2 ^ 32)) as [L|L]; split.
    - apply Z.mod_pos_bound. reflexivity.
    - apply (listing_small p g next ty undo_no table); try assumption; lia.
    - apply Z.div_pos; lia.
    - destruct Hr as [rest Hr]. destruct Hlow as [Hlow|]; [|lia]. pose proof (Z.mod_pos_bound undo_no (2 ^ 32) ltac:(lia)) as M.
      assert (Hhi : 0 <= undo_no / 2 ^ 32 < 2 ^ 32) by (split; [apply Z.div_pos; lia|apply Z.div_lt_upper_bound; lia]).
      assert (S1 : enc_compressed (undo_no mod 2 ^ 32) = [undo_no mod 2 ^ 32]) by (unfold enc_compressed; replace (undo_no mod 2 ^ 32 <? 128) with true by lia; cbn [be app]; f_equal; lia).
      assert (S2 : enc_much_compressed undo_no = 255 :: enc_compressed (undo_no / 2 ^ 32) ++ enc_compressed (undo_no mod 2 ^ 32)) by (unfold enc_much_compressed; now replace (undo_no <? 2 ^ 32) with false by lia).
      assert (S3 : enc_much_compressed (undo_no / 2 ^ 32) = enc_compressed (undo_no / 2 ^ 32)) by (unfold enc_much_compressed; now replace (undo_no / 2 ^ 32 <? 2 ^ 32) with true by lia).
      destruct (listing p g next ty undo_no (enc_much_compressed table ++ rest) (undo_no / 2 ^ 32) (enc_compressed (undo_no mod 2 ^ 32) ++ enc_much_compressed table ++ rest)) as [lines [l1 [l2 H]]]; try assumption; try lia;
        [| |rewrite (Z.mod_small (undo_no / 2 ^ 32)) in H by exact Hhi; now exists lines, l1, l2].
      + replace (len (enc_compressed (undo_no mod 2 ^ 32))) with 1 by (rewrite S1; reflexivity). rewrite S2, S3. change (Z.to_nat 1) with 1%nat. cbn [app skipn]. now rewrite <- app_assoc.
      + replace (len (enc_compressed (undo_no mod 2 ^ 32))) with 1 by (rewrite S1; reflexivity). rewrite len_app, S2, len_cons.
        pose proof (len_nonneg (enc_compressed (undo_no / 2 ^ 32) ++ enc_compressed (undo_no mod 2 ^ 32))). pose proof (len_nonneg (enc_much_compressed table ++ rest)). lia. }
  destruct HX as [H0 [lines [l1 [l2 [E [F [P T]]]]]]]. exists lines, l1, l2. split; [exact E|]. split; [exact F|]. split; [exact P|]. split; [exact T|].
  split; [intro X; exact (table_line_inj _ _ _ X T ltac:(lia) H0)|intro X; rewrite X; exact T].
Qed.
Print Assumptions C83_exact_refuted.
Example C83_exact_case : undo_rec_at (undo_page 272 (7 * 2 ^ 32 + 9) 5) 272 290 28 (7 * 2 ^ 32 + 9) 5 /\ (7 * 2 ^ 32 + 9) mod 2 ^ 32 < 128
  /\ undo_rec_at (undo_page 272 9 (2 ^ 32 + 5)) 272 290 28 9 (2 ^ 32 + 5) /\ first_record (undo_page 272 9 (2 ^ 32 + 5)) = 272.
Proof.
  split; [exists (skipn (Z.to_nat 279) (undo_page 272 (7 * 2 ^ 32 + 9) 5)); vm_compute; reflexivity|]. split; [reflexivity|].
  split; [exists (skipn (Z.to_nat 279) (undo_page 272 9 (2 ^ 32 + 5))); vm_compute; reflexivity|]. vm_compute. reflexivity.
Qed.
Example C83_case : page_image (undo_page 272 70000 300) /\ first_record (undo_page 272 70000 300) = 272
  /\ undo_rec_at (undo_page 272 70000 300) 272 290 28 70000 300.
Proof.
  split; [apply image_dec; vm_compute; reflexivity|]. split; [vm_compute; reflexivity|].
  exists (skipn (Z.to_nat 280) (undo_page 272 70000 300)). vm_compute. reflexivity.
Qed.

(** C84: false; a page without a log has start 0, and 0 - 38 wraps. *)
Theorem C84_undo_no_log_refuted : forall p g, page_image p -> parseFilHeader p = Ok g -> first_record p < 38 ->
  exists lines, ParseUndoPageHeader (pg_data g) = (lines, Panic).
Proof.
  intros p g Hp Hg Hs. rewrite (page_data p g Hp Hg).
  pose proof Hp as [Hl Hb]. change (zlen p) with (len p) in Hl.
  assert (Hd : len (skipn (Z.to_nat 38) p) = 16346) by (rewrite len_skipn; lia).
  assert (Hs' : field (skipn (Z.to_nat 38) p) 66 2 = first_record p) by (rewrite field_skip by lia; reflexivity).
  assert (Hb' : all_bytes (skipn (Z.to_nat 38) p)) by now apply all_bytes_skipn.
  rewrite undo_split, Hs' by assumption.
  rewrite tail_start_low; [|split; [|exact Hs]|exact Hd].
  - cbn [fst snd]. eauto.
  - unfold first_record, field. assert (B : all_bytes (firstn 2 (skipn (Z.to_nat (86 + 18)) p))) by now apply all_bytes_firstn, all_bytes_skipn.
    pose proof (be_val_bound _ B). lia.
Qed.
Print Assumptions C84_undo_no_log_refuted.
(** Full statement: no undo page makes the listing crash.  Proved: none whose
    log starts inside the page; missing (false): pages without a log. *)
Theorem C84_undo_no_log_partial : forall p g, page_image p -> parseFilHeader p = Ok g -> 38 <= first_record p <= 16384 - 24 ->
  exists lines l1 l2, ParseUndoPageHeader (pg_data g) = (lines ++ [l1; l2], Ok tt) /\ Forall2 (field_line p) undo_fields lines.
Proof.
  intros p g Hp Hg Hs. rewrite (page_data p g Hp Hg).
  pose proof Hp as [Hl Hb]. change (zlen p) with (len p) in Hl.
  assert (Hd : len (skipn (Z.to_nat 38) p) = 16346) by (rewrite len_skipn; lia).
  assert (Hs' : field (skipn (Z.to_nat 38) p) 66 2 = first_record p) by (rewrite field_skip by lia; reflexivity).
  assert (Hb' : all_bytes (skipn (Z.to_nat 38) p)) by now apply all_bytes_skipn.
  rewrite undo_split, Hs' by assumption.
  destruct (tail_room _ (first_record p) Hb' Hd Hs) as (l1 & l2 & ->). cbn [fst snd].
  exists (undo_lines_of (skipn (Z.to_nat 38) p)), l1, l2. split; [reflexivity|]. exact (field_lines p Hp).
Qed.
Print Assumptions C84_undo_no_log_partial.
Example C84_case : page_image (undo_page 0 1 1) /\ first_record (undo_page 0 1 1) < 38 /\ first_record (undo_page 300 1 1) = 300.
Proof. split; [apply image_dec; vm_compute; reflexivity|]. split; vm_compute; reflexivity. Qed.

(** C85: false for every input; the function that should build the statement
    returns the empty string. *)
Theorem C85_table_structure_refuted : forall tm file db tb sql,
  RecoveryTableStruct tm file db tb = Ok (sql, None) -> sql = [].
Proof.
  intros tm file db tb sql H. unfold RecoveryTableStruct in H. destruct (parseFile file) as [[pages [e|]]| |]; cbn in H; try discriminate. now injection H.
Qed.
Print Assumptions C85_table_structure_refuted.
(** Full statement: the CREATE TABLE statement of a known table is returned.
    Proved: a file that cannot be opened is an error; missing (false): the rest. *)
Theorem C85_table_structure_partial : forall tm db tb, exists e, RecoveryTableStruct tm None db tb = Ok ([], Some e).
Proof. intros tm db tb. eexists. reflexivity. Qed.
Print Assumptions C85_table_structure_partial.
Example C85_case : RecoveryTableStruct [(5, mkTable (bs "d") (bs "t") [sysCol (bs "a") 6 0 4 false] [] 0 0)] (Some []) (bs "d") (bs "t") = Ok ([], None).
Proof. reflexivity. Qed.

(** C86 *)
Lemma beq_iff a b : beq a b = true <-> a = b.
Proof.
  revert b. induction a as [|x a IH]; intros [|y b]; cbn; split; intro H; try discriminate; try reflexivity.
  - apply andb_prop in H as [H1 H2]. f_equal; [lia|now apply IH].
  - injection H as -> ->. rewrite Z.eqb_refl. cbn. now apply IH.
Qed.
Theorem C86_column_type : forall name columns,
  (forall before c after, columns = before ++ c :: after -> c_name c = name -> (forall b, In b before -> c_name b <> name) ->
     getColumnType name columns = c_type c)
  /\ ((forall c, In c columns -> c_name c <> name) -> getColumnType name columns = 0).
Proof.
  intros name columns. split.
  - intros before c after -> Hc. induction before as [|b before IH]; intro Hb; cbn.
    + now rewrite (proj2 (beq_iff _ _) Hc).
    + destruct (beq (c_name b) name) eqn:E; [|apply IH; intros x Hx; apply Hb; now right].
      apply beq_iff in E. destruct (Hb b (or_introl eq_refl) E).
  - induction columns as [|c columns IH]; intro H; cbn; [reflexivity|].
    destruct (beq (c_name c) name) eqn:E; [|apply IH; intros x Hx; apply H; now right].
    apply beq_iff in E. destruct (H c (or_introl eq_refl) E).
Qed.
Print Assumptions C86_column_type.
Theorem C86_table_found : forall tm db tb k t, In (k, t) tm -> t_db t = db -> t_name t = tb ->
  (forall k' t', In (k', t') tm -> t_db t' = db -> t_name t' = tb -> t' = t) ->
  getTableFromDict tm db tb = t.
Proof.
  intros tm db tb k t Hin Hd Ht Hu. unfold getTableFromDict.
  cut (forall z, (In (k, t) tm \/ z = t) -> fold_left (fun table kt => if beq (t_db (snd kt)) db && beq (t_name (snd kt)) tb then snd kt else table) tm z = t).
  { intro H. apply H. now left. }
  clear Hin. induction tm as [|[k' t'] tm IH]; intros z [Hz|Hz]; cbn [fold_left snd].
  - destruct Hz.
  - exact Hz.
  - apply IH. { intros k2 t2 H2. apply (Hu k2 t2). now right. }
    destruct Hz as [Hz|Hz]; [|now left]. right. injection Hz as _ ->.
    rewrite (proj2 (beq_iff _ _) Hd), (proj2 (beq_iff _ _) Ht). reflexivity.
  - apply IH. { intros k2 t2 H2. apply (Hu k2 t2). now right. }
    right. subst z. destruct (beq (t_db t') db && beq (t_name t') tb) eqn:E; [|reflexivity].
    apply andb_prop in E as [E1 E2]. apply beq_iff in E1. apply beq_iff in E2. apply (Hu k' t'); [now left|assumption|assumption].
Qed.
Print Assumptions C86_table_found.
Theorem C86_table_unknown : forall tm db tb, (forall k t, In (k, t) tm -> ~ (t_db t = db /\ t_name t = tb)) ->
  getTableFromDict tm db tb = mkTable [] [] [] [] 0 0.
Proof.
  intros tm db tb H. unfold getTableFromDict. change zeroTable with (mkTable [] [] [] [] 0 0). generalize (mkTable [] [] [] [] 0 0) as z. induction tm as [|[k t] tm IH]; intro z; [reflexivity|]. cbn [fold_left snd].
  destruct (beq (t_db t) db) eqn:E1; cbn [andb]; [destruct (beq (t_name t) tb) eqn:E2; cbn [andb]|].
  - exfalso. apply beq_iff in E1, E2. apply (H k t); [now left|now split].
  - apply IH. intros k' t' Hi. apply (H k' t'). now right.
  - apply IH. intros k' t' Hi. apply (H k' t'). now right.
Qed.
Print Assumptions C86_table_unknown.
Example C86_unknown_case : getTableFromDict [(5, mkTable (bs "a") (bs "t") [] [] 3 4)] (bs "b") (bs "t") = mkTable [] [] [] [] 0 0.
Proof. reflexivity. Qed.
Example C86_case : getColumnType (bs "b") [sysCol (bs "a") 6 0 4 false; sysCol (bs "b") 12 1 9 false; sysCol (bs "b") 4 2 9 false] = 12.
Proof. reflexivity. Qed.
