(** C129: tables clustered on a unique key that is not a PRIMARY KEY. *)
From Coq Require Import String ZifyBool.
From Verif Require Import PropCmd GoBase Utils Ibdata Cmd SpecInno SpecText SpecSql SpecRecord SpecRow SpecPage SpecDict SpecTool SpecCmd SpecUnique
  PBase PWire PValue PText PRec PPage PSql PFile PDict PMove PropDict PBuild PTool PropTool PMake PropVirtual PTypes.
Local Open Scope string_scope.
Local Open Scope list_scope.
Local Open Scope Z_scope.

(** * What the tool takes for the columns *)
Lemma placed_promoted d t e key rest : placed d t e -> promoted d (td_id t) key rest -> t_columns e = map descriptor (columns_of d (td_id t)).
Proof.
  intros [e1 [cs [HL [Em HW]]]] [_ HN]. pose proof HL as [_ [_ [L3 _]]].
  assert (Hn : forall k ix, In (k, ix) (map (index_entry d) (indexes_of d (td_id t))) -> ~ is_primary ix /\ ~ is_generated ix).
  { intros k ix H. apply in_map_iff in H as [i [E Hi]]. destruct (HN i Hi) as [N1 N2]. unfold index_entry in E. injection E as <- <-. split; assumption. }
  rewrite pk_others in Em by (intros k ix H; apply (Hn k ix H)). injection Em as <-.
  destruct HW as [_ [_ [_ [_ [_ [_ [_ HX]]]]]]]. cbn [with_columns t_indexes t_columns] in HX. apply HX. rewrite L3. intros k ix H [P|G]; [now apply (proj1 (Hn k ix H))|now apply (proj2 (Hn k ix H))].
Qed.

(** * Tables of one or two columns *)
Lemma set_ok {A} (d : list A) i v r : set_index d i v = Ok r -> i < len d /\ len r = len d.
Proof.
  unfold set_index. intro H. destruct ((0 <=? i) && (i <? len d)) eqn:E; [|discriminate H]. assert (Er : r = firstn (Z.to_nat i) d ++ v :: skipn (S (Z.to_nat i)) d) by congruence. rewrite Er. split; [lia|]. clear H Er.
  pose proof (skipn_length (S (Z.to_nat i)) d) as K. revert K. generalize (skipn (S (Z.to_nat i)) d) as tl. intros tl K. unfold len in *. rewrite app_length, firstn_length. cbn [List.length]. lia.
Qed.
Lemma bind_some {A B} (m : res A) (k : A -> res B) b : bind m k = Ok b -> exists a, m = Ok a /\ k a = Ok b.
Proof. destruct m as [a| |]; cbn [bind]; intro H; [now exists a|discriminate|discriminate]. Qed.
Lemma new_room cols : forall i d st offs r, offsetsNew_loop cols i d st offs = Ok r -> cols <> [] -> i + 2 + len cols < len offs.
Proof.
  induction cols as [|c cols IH]; intros i d st offs r H Hne; [contradiction|]. cbn [offsetsNew_loop] in H. apply bind_some in H as [[l st'] [_ H]]. apply bind_some in H as [offs' [H1 H2]].
  apply set_ok in H1 as [H1 L]. destruct cols as [|c2 cols]; [unfold len in *; cbn [List.length]; lia|]. specialize (IH _ _ _ _ _ H2 ltac:(discriminate)). unfold len in *. cbn [List.length] in *. lia.
Qed.
Lemma old1_room n : forall i d off offs r, offsetsOld1 n i d off offs = Ok r -> (0 < n)%nat -> i + 2 + Z.of_nat n < len offs.
Proof.
  induction n as [|n IH]; intros i d off offs r H Hn; [lia|]. cbn [offsetsOld1] in H. apply bind_some in H as [x [_ H]]. apply bind_some in H as [offs' [H1 H2]].
  apply set_ok in H1 as [H1 L]. destruct n as [|n]; [lia|]. specialize (IH _ _ _ _ _ H2 ltac:(lia)). lia.
Qed.
Lemma old2_room n : forall i d off offs r, offsetsOld2 n i d off offs = Ok r -> (0 < n)%nat -> i + 2 + Z.of_nat n < len offs.
Proof.
  induction n as [|n IH]; intros i d off offs r H Hn; [lia|]. cbn [offsetsOld2] in H. apply bind_some in H as [x [_ H]]. apply bind_some in H as [offs' [H1 H2]].
  apply set_ok in H1 as [H1 L]. destruct n as [|n]; [lia|]. specialize (IH _ _ _ _ _ H2 ltac:(lia)). lia.
Qed.
Lemma zeros_len n : len (GoBase.zeros n) = Z.of_nat n.
Proof. unfold len, GoBase.zeros. now rewrite repeat_length. Qed.
Lemma old_room d off n r : ibRecInitOffsetsOld d off (GoBase.zeros (n * 2)) n = Ok r -> (0 < n)%nat -> (3 <= n)%nat.
Proof.
  unfold ibRecInitOffsetsOld. intros H Hn. apply bind_some in H as [o1 [H1 H]]. apply bind_some in H as [o2 [H2 H]]. apply bind_some in H as [num [_ H]]. apply set_ok in H1 as [_ L1]. apply set_ok in H2 as [_ L2]. rewrite zeros_len in L1.
  destruct (negb (num =? 0)); apply bind_some in H as [o3 [H3 H]]; apply set_ok in H3 as [_ L3]; [apply old1_room in H|apply old2_room in H]; lia.
Qed.
Lemma new_room_table d off (cols : list Column) table r : ibRecInitOffsetsNew d off (GoBase.zeros (List.length cols * 2)) table = Ok r -> List.length (t_columns table) = List.length cols -> cols <> [] -> (3 <= List.length cols)%nat.
Proof.
  unfold ibRecInitOffsetsNew. intros H HL Hne. apply bind_some in H as [o1 [H1 H]]. apply bind_some in H as [o2 [H2 H]]. apply bind_some in H as [x [_ H]]. apply bind_some in H as [y [_ H]].
  apply set_ok in H1 as [_ L1]. apply set_ok in H2 as [_ L2]. rewrite zeros_len in L1. apply new_room in H; [|destruct (t_columns table); [destruct cols; [contradiction|discriminate]|discriminate]]. unfold len in *. lia.
Qed.
Lemma lift_some {A B} (m : res A) (k : A -> W B) : wbind (wlift m) k = match m with Ok a => k a | Panic => ([], Panic) | NoFuel => ([], NoFuel) end.
Proof. destruct m as [a| |]; cbn [wlift wbind]; [|reflexivity|reflexivity]. destruct (k a) as [o r]. reflexivity. Qed.
(** A record of such a table ends the program. *)
Lemma record_dead rt tm page off cols c0 table : cols <> [] -> (List.length cols <= 2)%nat -> hd_error cols = Some c0 -> mget tm (c_table c0) = Some table -> List.length (t_columns table) = List.length cols ->
  parsePage_record rt tm page off cols = ([], Panic).
Proof.
  intros Hne H2 Hc Ht HL. pose proof (nf_record rt tm page off cols) as N. unfold parsePage_record in *. cbv zeta in *. rewrite lift_some in *. destruct (slice_from page off) as [origin| |]; [|reflexivity|now elim N].
  rewrite lift_some in *. destruct (PageIsCompact page) as [cp| |]; [|reflexivity|now elim N]. rewrite lift_some in *.
  assert (E : index cols 0 = Ok c0) by (destruct cols as [|x l]; [contradiction|]; injection Hc as ->; reflexivity).
  destruct (cp =? 0).
  - destruct (ibRecInitOffsetsOld page off (GoBase.zeros (List.length cols * 2)) (List.length cols)) as [os| |] eqn:EO; cbn [bind] in *; [|reflexivity|now elim N].
    apply old_room in EO; [lia|destruct cols; [contradiction|cbn [List.length]; lia]].
  - rewrite E in *. cbn [bind] in *. rewrite Ht in *. destruct (ibRecInitOffsetsNew page off (GoBase.zeros (List.length cols * 2)) table) as [os| |] eqn:EO; cbn [bind] in *; [|reflexivity|now elim N].
    apply (new_room_table _ _ _ _ _ EO HL) in Hne. lia.
Qed.

Lemma page_dead fuel rt tm compact page rec cols c0 table off offs : in_format compact page -> cols <> [] -> (List.length cols <= 2)%nat -> hd_error cols = Some c0 -> mget tm (c_table c0) = Some table -> List.length (t_columns table) = List.length cols ->
  user_origin off -> (if rec : bool then off = field page 44 2 else chain compact page (infimum compact) (off :: offs) (supremum compact)) ->
  parsePage (S fuel) rt tm page cols rec (field page 44 2) = ([], Panic).
Proof.
  intros Hf Hne H2 Hc Ht HL Hu Hs. rewrite (parsePage_start _ rt tm page cols compact) by exact Hf.
  assert (E : (if rec then field page 44 2 else if compact then 99 + field page 97 2 else field page 99 2) = off).
  { destruct rec; [now symmetry|]. inversion Hs as [|? ? ? ? Hl _]; subst. unfold user_origin in Hu. apply start_linked; [lia|destruct compact; cbn; lia|exact Hl]. }
  rewrite E. cbn [parsePage_loop]. unfold user_origin in Hu. replace ((off <? 16384 - 6) && negb (off =? supremum compact)) with true by (destruct compact; cbn [supremum]; lia).
  rewrite (record_dead rt tm page off cols c0 table Hne H2 Hc Ht HL). reflexivity.
Qed.
Lemma pages_dead fuel rt tm db tb rec ss cols c0 table : cols <> [] -> (List.length cols <= 2)%nat -> hd_error cols = Some c0 -> mget tm (c_table c0) = Some table -> List.length (t_columns table) = List.length cols ->
  forall ps contents, Forall2 (page_holds rt rec ss) ps contents -> Forall page_image ps -> Forall (fun p => eligible rec p = true) ps -> List.concat contents <> [] ->
  dataPages_loop (S fuel) rt tm (map as_page ps) db tb rec cols = ([], Panic).
Proof.
  intros Hne H2 Hc Ht HL ps contents HP. induction HP as [|p rows ps contents Hp _ IH]; intros Hi He Hn; [contradiction|].
  inversion Hi as [|? ? Hi1 Hi2]; subst. inversion He as [|? ? He1 He2]; subst. cbn [map dataPages_loop]. destruct (eligible_selected p rec Hi1 He1) as [ph [E1 [E2 E3]]].
  rewrite lift_some, E1, E3. change (pg_orig (as_page p)) with p. rewrite E2.
  destruct Hp as [compact [offs [Hf [Hch HR]]]]. destruct HR as [|off vs offs rows [Hu _] HR].
  - destruct rec; [destruct Hch as [_ X]; discriminate X|].
    rewrite (page_live rt tm p compact [] [] [] cols cols (S fuel) (field p 44 2) Hf Hch (Forall_nil _) (dec_nil rt tm p cols) ltac:(cbn [List.length]; lia)).
    unfold walked. cbn [wbind List.length Nat.eqb wret app]. rewrite IH by assumption. reflexivity.
  - rewrite (page_dead fuel rt tm compact p rec cols c0 table off offs Hf Hne H2 Hc Ht HL Hu); [reflexivity|]. destruct rec; [|exact Hch]. destruct Hch as [_ X]. cbn [hd_error] in X. now injection X.
Qed.

Lemma unique_entry fuel rt d sys_pages t db tb key rest : unique_table d sys_pages t db tb key rest -> (Z.to_nat 16384 < fuel)%nat ->
  exists tm e, ParseDictPage fuel rt (Some (map IoBytes sys_pages)) = ([], Ok (tm, None)) /\ represents (dd_tables d) (placed d) tm /\ mget tm (td_id t) = Some e
    /\ t_columns e = map descriptor (columns_of d (td_id t)) /\ Forall (fun c => c_table c = td_id t) (t_columns e).
Proof.
  intros [Hs [Hc [_ [Ht [_ [_ [_ [_ [_ Hp]]]]]]]]] Hfuel. destruct (dict_read fuel rt sys_pages d Hs Hc Hfuel) as [tm [Hd HR]]. destruct (represents_in d _ tm t Hc HR Ht) as [e [Hg HP]].
  exists tm, e. pose proof (placed_promoted d t e key rest HP Hp) as Ec. split; [exact Hd|]. split; [exact HR|]. split; [exact Hg|]. split; [exact Ec|]. rewrite Ec. apply Forall_map. exact (table_ids d (td_id t)).
Qed.
Lemma entry_table d tm t e db tb : consistent d -> NoDup (map td_name (dd_tables d)) -> represents (dd_tables d) (placed d) tm -> In t (dd_tables d) -> named_as (td_name t) db tb -> db <> [] ->
  mget tm (td_id t) = Some e -> is_table tm db tb (t_columns e).
Proof.
  intros Hc Hnd HR Ht Hnm Hdb Hg. pose proof (placed_agrees d tm Hc HR) as [Hkeys [Hids HA]]. split.
  - exists (td_id t), e. destruct (HA t Ht) as [e' [Hg' [Hn' _]]]. rewrite Hg in Hg'. injection Hg' as <-.
    destruct (named_unique _ _ _ _ _ Hnm Hn') as [<- <-]. split; [now apply mget_in|split; reflexivity].
  - intros id e' Hin E1 E2. apply (in_mget tm id e' Hkeys) in Hin. assert (Hid : In id (map td_id (dd_tables d))) by (apply Hids; apply mget_in in Hin; now apply (in_map fst) in Hin).
    apply in_map_iff in Hid as [t' [<- Ht']]. destruct (HA t' Ht') as [e2 [Hg2 [Hn2 _]]]. rewrite Hin in Hg2. injection Hg2 as <-. rewrite E1, E2 in Hn2.
    pose proof (named_back _ _ _ _ Hdb Hnm Hn2) as En.
    assert (t = t').
    { clear - Hnd Ht Ht' En. induction (dd_tables d) as [|x l IH]; [contradiction|]. cbn [map] in Hnd. inversion Hnd as [|? ? N1 N2]; subst.
      destruct Ht as [->|Ht], Ht' as [->|Ht']; [reflexivity| | |now apply IH].
      - exfalso. apply N1. rewrite En. now apply in_map.
      - exfalso. apply N1. rewrite <- En. now apply in_map. }
    subst t'. rewrite Hg in Hin. now injection Hin as <-.
Qed.
(** A table of one or two columns: the first record ends the program. *)
Theorem C129_crash_refuted : forall fuel rt files op sys tfile d sys_pages t db tb key rest pages rows,
  unique_input rt (is_deleted op) d sys_pages t db tb key rest pages rows -> (List.length (columns_of d (td_id t)) <= 2)%nat -> rows <> [] ->
  files sys = Some (map IoBytes sys_pages) -> files tfile = Some (map IoBytes pages) -> (Z.to_nat 16384 < fuel)%nat ->
  FromDataFile fuel rt files op sys tfile db tb = ([], Panic).
Proof.
  intros fuel rt files op sys tfile d sys_pages t db tb key rest pages rows [HT [Hi [contents [HP EC]]]] H2 Hn F1 F2 Hfuel.
  destruct (unique_entry fuel rt d sys_pages t db tb key rest HT Hfuel) as [tm [e [Hd [HR [Hg [Ec Hids]]]]]].
  pose proof HT as [_ [Hc [Hnd [Ht [Hnm [Hdb [_ [_ [_ [[i [Hi1 [_ [_ [Hincl [Hk _]]]]]] _]]]]]]]]]].
  pose proof (entry_table d tm t e db tb Hc Hnd HR Ht Hnm Hdb Hg) as HI.
  assert (Hne : t_columns e <> []).
  { rewrite Ec. intro X. apply map_eq_nil in X. rewrite X in Hincl. destruct key as [|k key]; [contradiction|]. exact (Hincl k (or_introl eq_refl)). }
  rewrite C73_mode, F1, Hd. cbn [wbind]. rewrite F2. change (if list_eq_dec Z.eq_dec op (txt "RecoveryData") then true else false) with (is_deleted op).
  assert (Hfi : Forall page_image (firsts pages)) by (apply Forall_forall; intros p Hp; apply firsts_incl in Hp; rewrite Forall_forall in Hi; now apply Hi).
  destruct fuel as [|fuel]; [lia|]. unfold ParseDataPage. rewrite file_pages by exact Hi. rewrite lift_some. cbv beta iota. rewrite (known_columns _ _ _ _ HI), eligible_filter by exact Hfi.
  destruct (t_columns e) as [|c0 cs] eqn:EE; [contradiction|].
  rewrite (pages_dead fuel rt tm db tb (is_deleted op) (key_slots key rest) (c0 :: cs) c0 e) with (contents := contents); try assumption; try reflexivity.
  - rewrite Ec, map_length. exact H2.
  - inversion Hids as [|? ? X _]; subst. now rewrite X.
  - now rewrite EE.
  - apply Forall_forall. intros p Hp. apply filter_In in Hp. rewrite Forall_forall in Hfi. now apply Hfi.
  - apply Forall_forall. intros p Hp. apply filter_In in Hp. tauto.
  - rewrite EC. destruct rows; [contradiction|discriminate].
Qed.
Print Assumptions C129_crash_refuted.

(** * Integer columns read thirteen bytes early *)
Lemma int_layout c k : signed_int c k -> slot_layout (User c) = mkLayout (negb (Z.testbit (cd_prtype c) 8)) (Some (Z.of_nat k)) false /\ (0 < k)%nat.
Proof.
  intros [T1 [_ [_ [T4 T5]]]]. cbn [slot_layout]. unfold column_layout, inno_layout. rewrite T1, T4. cbn [existsb Z.eqb orb].
  destruct T5 as [<-|[<-|[<-|[<-|[<-|[]]]]]]; split; try reflexivity; lia.
Qed.
Lemma take_ints rt ss vs fs : row_encodes rt ss vs fs -> Forall (fun c => exists k, signed_int c k) (users ss) -> Forall2 fits (map slot_layout ss) fs ->
  forall b, all_bytes b -> (List.length (body fs) <= List.length b)%nat ->
  exists fs' ps extra, b = body fs' ++ extra /\ (List.length (body fs') <= List.length (body fs))%nat /\ taken_for (users ss) vs b ps /\ row_encodes rt (map User (users ss)) ps fs'
    /\ lengths (map slot_layout (map User (users ss))) fs' = [] /\ lengths (map slot_layout ss) fs = []
    /\ null_flags (map slot_layout (map User (users ss))) fs' = null_flags (map slot_layout ss) fs /\ Forall2 fits (map slot_layout (map User (users ss))) fs'.
Proof.
  induction 1 as [|n ss vs o fs E _ IH|c ss v vs f fs E P _ IH]; intros HI HF b Hb L.
  - exists [], [], b. repeat split; try constructor.
  - cbn [map] in HF. inversion HF as [|? ? ? ? F1 F2]; subst. cbn [users flat_map app] in *. cbn [body flat_map content] in L. rewrite app_length in L.
    destruct (IH HI F2 b Hb) as [fs' [ps [extra [A1 [A2 [A3 [A4 [A5 [A6 [A7 A8]]]]]]]]]]; [unfold body; lia|].
    exists fs', ps, extra. repeat split; try assumption. unfold body in A2 |- *. cbn [flat_map content]. rewrite app_length. lia.
  - cbn [map] in HF. inversion HF as [|? ? ? ? F1 F2]; subst. change (users (User c :: ss)) with (c :: users ss) in *. inversion HI as [|? ? [k Hk] HI2]; subst.
    destruct (int_layout c k Hk) as [EL Kp]. change (fits (slot_layout (User c)) f) in F1. rewrite EL in F1. pose proof Hk as [T1 [T2 [T3 [T4 T5]]]]. destruct f as [|o|o]; cbn [fits l_fixed l_nullable] in F1; [| |contradiction].
    + assert (v = SNull) by (inversion E; reflexivity). subst v. destruct (IH HI2 F2 b Hb L) as [fs' [ps [extra [A1 [A2 [A3 [A4 [A5 [A6 [A7 A8]]]]]]]]]].
      exists (FNull :: fs'), (SNull :: ps), extra. cbn [map]. split; [exact A1|]. split; [exact A2|]. split; [now constructor|]. split; [now constructor|].
      cbn [lengths null_flags]. rewrite EL. cbn [length_bytes l_nullable app is_null]. split; [exact A5|]. split; [exact A6|]. split; [now rewrite A7|]. constructor; [exact F1|exact A8].
    + assert (Hv : v <> SNull) by (intros ->; inversion E). unfold body in L. cbn [flat_map content] in L. rewrite app_length in L. assert (Lo : List.length o = k) by (unfold zlen in F1; lia).
      destruct (IH HI2 F2 (skipn k b)) as [fs' [ps [extra [A1 [A2 [A3 [A4 [A5 [A6 [A7 A8]]]]]]]]]]; [now apply all_bytes_skipn|rewrite skipn_length; unfold body; lia|].
      destruct (any_int k (firstn k b)) as [z [Ez Rz]]; [exact Kp|rewrite firstn_length; lia|now apply all_bytes_firstn|].
      assert (Lz : List.length (store_int k z) = k) by (rewrite <- Ez, firstn_length; lia).
      exists (FBytes (store_int k z) :: fs'), (SStr (fmt_d z) :: ps), extra. cbn [map]. unfold body. cbn [flat_map content]. split; [rewrite <- Ez, <- app_assoc; change (flat_map content fs') with (body fs'); rewrite <- A1; symmetry; apply firstn_skipn|].
      split; [rewrite !app_length; unfold body in A2; lia|].
      split. { rewrite <- (firstn_skipn k b), Ez. now constructor; [exact Hv|exact T4|exact Rz|apply fmt_d_spec|exact A3]. }
      split. { constructor; [|destruct (int_text_facts z _ (fmt_d_spec z)) as [P1 [P2 P3]]; split; [exact P1|]; split; assumption|exact A4].
        apply (enc_int rt c k z); try assumption; [|apply fmt_d_spec]. clear - T2. cbn [In] in *. tauto. }
      cbn [lengths null_flags]. rewrite EL. cbn [length_bytes l_fixed l_nullable app is_null]. split; [exact A5|]. split; [exact A6|]. split; [now rewrite A7|]. constructor; [unfold fits; cbn [l_fixed]; unfold zlen; lia|exact A8].
Qed.

Lemma page_taken rt deleted ss page rows : page_image page -> page_fields rt deleted ss page rows -> Forall (fun c => exists k, signed_int c k) (users ss) ->
  nullable_count (map slot_layout (map User (users ss))) = nullable_count (map slot_layout ss) ->
  exists ps, page_holds rt deleted (map User (users ss)) page ps /\ Forall2 (fun r p => taken_for (users ss) (fst r) (body (snd r)) p /\ all_bytes (body (snd r)) /\ row_encodes rt ss (fst r) (snd r) /\ Forall2 fits (map slot_layout ss) (snd r)) rows ps.
Proof.
  intros [_ Hb] [offs [Hf [Hch HR]]] HI Hn.
  assert (X : exists ps, Forall2 (fun off vs => user_origin off /\ exists fs, stored_at true page off (map slot_layout (map User (users ss))) fs
         /\ off + zlen (body fs) <= 16384 - 8 /\ row_encodes rt (map User (users ss)) vs fs) offs ps /\ Forall2 (fun r p => taken_for (users ss) (fst r) (body (snd r)) p /\ all_bytes (body (snd r)) /\ row_encodes rt ss (fst r) (snd r) /\ Forall2 fits (map slot_layout ss) (snd r)) rows ps).
  { clear Hch. induction HR as [|off r offs rows [Hu [HC [HE HE2]]] _ IH]; [exists []; split; constructor|]. destruct IH as [ps [I1 I2]]. destruct HC as [pre [header [post [EP [P1 [P2 [EO HF]]]]]]].
    assert (Hbb : all_bytes (body (snd r))).
    { rewrite EP in Hb. apply Forall_app in Hb as [_ Hb]. apply Forall_app in Hb as [_ Hb]. apply Forall_app in Hb as [_ Hb]. apply Forall_app in Hb as [_ Hb]. now apply Forall_app in Hb as [Hb _]. }
    destruct (take_ints rt ss (fst r) (snd r) HE2 HI HF (body (snd r)) Hbb (le_n _)) as [fs' [p [extra [A1 [A2 [A3 [A4 [A5 [A6 [A7 A8]]]]]]]]]].
    exists (p :: ps). split; [|now constructor; [split; [exact A3|split; [exact Hbb|split; [exact HE2|exact HF]]]|exact I2]]. constructor; [|exact I1]. split; [exact Hu|]. exists fs'. split; [|split; [unfold zlen in *; lia|exact A4]].
    exists pre, header, (extra ++ post). rewrite A5, A7, Hn. rewrite A6 in EP, EO. split; [rewrite EP at 1; rewrite A1; now rewrite <- app_assoc|]. split; [exact P1|]. split; [exact P2|]. split; [exact EO|exact A8]. }
  destruct X as [ps [X1 X2]]. exists ps. split; [|exact X2]. exists true, offs. split; [exact Hf|]. split; [exact Hch|exact X1].
Qed.
Lemma file_taken rt deleted ss pages rows : file_fields rt deleted ss pages rows -> Forall (fun c => exists k, signed_int c k) (users ss) ->
  nullable_count (map slot_layout (map User (users ss))) = nullable_count (map slot_layout ss) ->
  exists ps, file_holds rt deleted (map User (users ss)) pages ps /\ Forall2 (fun r p => taken_for (users ss) (fst r) (body (snd r)) p /\ all_bytes (body (snd r)) /\ row_encodes rt ss (fst r) (snd r) /\ Forall2 fits (map slot_layout ss) (snd r)) rows ps.
Proof.
  intros [Hi [contents [HP EC]]] HI Hn. subst rows.
  assert (HG : Forall page_image (filter (eligible deleted) (firsts pages))) by (apply Forall_forall; intros p Hp; apply filter_In in Hp as [Hp _]; apply firsts_incl in Hp; rewrite Forall_forall in Hi; now apply Hi).
  assert (X : exists cs, Forall2 (page_holds rt deleted (map User (users ss))) (filter (eligible deleted) (firsts pages)) cs /\ Forall2 (fun r p => taken_for (users ss) (fst r) (body (snd r)) p /\ all_bytes (body (snd r)) /\ row_encodes rt ss (fst r) (snd r) /\ Forall2 fits (map slot_layout ss) (snd r)) (List.concat contents) (List.concat cs)).
  { clear Hi. induction HP as [|p rs ps cs Hp _ IH]; [exists []; split; constructor|]. inversion HG as [|? ? G1 G2]; subst. destruct (IH G2) as [cts [I1 I2]].
    destruct (page_taken rt deleted ss p rs G1 Hp HI Hn) as [ct [J1 J2]]. exists (ct :: cts). split; [now constructor|]. cbn [List.concat]. now apply Forall2_app. }
  destruct X as [cs [X1 X2]]. exists (List.concat cs). split; [|exact X2]. split; [exact Hi|]. exists cs. auto.
Qed.
Lemma users_key key rest : users (key_slots key rest) = key ++ rest.
Proof. unfold key_slots. unfold users. rewrite !flat_map_app. cbn [flat_map app]. assert (X : forall cs, flat_map (fun s => match s with Own _ => [] | User c => [c] end) (map User cs) = cs) by (induction cs as [|c cs IH]; [reflexivity|cbn [map flat_map app]; now rewrite IH]). now rewrite !X. Qed.
Lemma count_key key rest : nullable_count (map slot_layout (key_slots key rest)) = nullable_count (map slot_layout (map User (key ++ rest))).
Proof. unfold key_slots. rewrite !map_app, !nullable_app. change (nullable_count (map slot_layout [Own 6; Own 7])) with 0. lia. Qed.

Lemma unique_taken fuel rt files op sys tfile d sys_pages t db tb key rest pages rows :
  unique_fields rt (is_deleted op) d sys_pages t db tb key rest pages rows -> columns_of d (td_id t) = key ++ rest -> (3 <= List.length (columns_of d (td_id t)))%nat ->
  Forall (fun c => exists k, signed_int c k) (columns_of d (td_id t)) ->
  files sys = Some (map IoBytes sys_pages) -> files tfile = Some (map IoBytes pages) -> (Z.to_nat 16384 < fuel)%nat ->
  exists lines ps, FromDataFile fuel rt files op sys tfile db tb = (lines, Ok tt)
    /\ Forall2 (fun r p => taken_for (columns_of d (td_id t)) (values (columns_of d (td_id t)) (fst r)) (body (snd r)) p /\ all_bytes (body (snd r))
         /\ row_encodes rt (key_slots key rest) (values (columns_of d (td_id t)) (fst r)) (snd r) /\ Forall2 fits (map slot_layout (key_slots key rest)) (snd r)) rows ps
    /\ Forall2 (fun p line => read_replace line = Some (db, tb, p)) ps lines.
Proof.
  intros [HT HF] HE H3 HI F1 F2 Hfuel.
  destruct (unique_entry fuel rt d sys_pages t db tb key rest HT Hfuel) as [tm [e [Hd [HR [Hg [Ec Hids]]]]]].
  pose proof HT as [_ [Hc [Hnd [Ht [Hnm [Hdb [Hb1 [Hb2 [Hro _]]]]]]]]].
  destruct (file_taken rt _ _ _ _ HF) as [ps [HH HP]]; [rewrite users_key, <- HE; exact HI|now rewrite users_key, count_key|].
  rewrite users_key, <- HE in HH, HP.
  destruct (tool_with fuel rt files op sys tfile d sys_pages t e db tb (map User (columns_of d (td_id t))) pages ps tm) as [lines [E HL]]; try assumption.
  - rewrite Ec. now apply user_columns.
  - symmetry. apply nullable_users.
  - rewrite Ec, map_length. exact H3.
  - destruct (columns_of d (td_id t)) as [|c cs]; [cbn in H3; lia|]. exists c. now left.
  - exists lines, ps. split; [exact E|]. split; [|exact HL]. clear - HP. revert ps HP. induction rows as [|r rows IH]; intros ps HP; cbn [map] in HP; inversion HP as [|? ? ? ? H1 H2]; subst; [constructor|]. constructor; [exact H1|now apply IH].
Qed.
(** Three signed integer columns or more, those of the key first: everything
    behind the key is read thirteen bytes too early, without a word about it. *)
Theorem C129_values_refuted : forall fuel rt files op sys tfile d sys_pages t db tb key rest pages rows,
  unique_fields rt (is_deleted op) d sys_pages t db tb key rest pages rows -> columns_of d (td_id t) = key ++ rest -> (3 <= List.length (columns_of d (td_id t)))%nat ->
  Forall (fun c => exists k, signed_int c k) (columns_of d (td_id t)) ->
  files sys = Some (map IoBytes sys_pages) -> files tfile = Some (map IoBytes pages) -> (Z.to_nat 16384 < fuel)%nat ->
  exists lines ps, FromDataFile fuel rt files op sys tfile db tb = (lines, Ok tt)
    /\ Forall2 (fun r p => taken_for (columns_of d (td_id t)) (values (columns_of d (td_id t)) (fst r)) (body (snd r)) p) rows ps
    /\ Forall2 (fun p line => read_replace line = Some (db, tb, p)) ps lines.
Proof.
  intros fuel rt files op sys tfile d sys_pages t db tb key rest pages rows HU HE H3 HI F1 F2 Hfuel.
  destruct (unique_taken fuel rt files op sys tfile d sys_pages t db tb key rest pages rows HU HE H3 HI F1 F2 Hfuel) as [lines [ps [E [HP HL]]]].
  exists lines, ps. split; [exact E|]. split; [|exact HL]. clear - HP. induction HP as [|r p rows ps [H _] _ IH]; constructor; assumption.
Qed.
Print Assumptions C129_values_refuted.
Lemma app_eq_split (A : Type) (a : list A) : forall b c d, a ++ b = c ++ d -> List.length a = List.length c -> a = c /\ b = d.
Proof. induction a as [|x a IH]; intros b [|y c] d E L; try discriminate; [now split|]. cbn [app] in E. injection E as -> E. injection L as L. destruct (IH _ _ _ E L) as [-> ->]. now split. Qed.
(** The key one column: what follows it is printed as the first bytes of the
    number of the transaction that wrote the row. *)
Theorem C129_second_refuted : forall fuel rt files op sys tfile d sys_pages t db tb k c rest w pages rows,
  unique_fields rt (is_deleted op) d sys_pages t db tb [k] (c :: rest) pages rows -> columns_of d (td_id t) = [k] ++ c :: rest -> (3 <= List.length (columns_of d (td_id t)))%nat ->
  Forall (fun c => exists k, signed_int c k) (columns_of d (td_id t)) -> signed_int c w -> not_null c -> (w <= 4)%nat ->
  files sys = Some (map IoBytes sys_pages) -> files tfile = Some (map IoBytes pages) -> (Z.to_nat 16384 < fuel)%nat ->
  exists lines, FromDataFile fuel rt files op sys tfile db tb = (lines, Ok tt)
    /\ Forall2 (fun r line => exists f trx fs v t vs, snd r = f :: FBytes (be 6 trx) :: fs /\ 0 <= trx < 256 ^ 6
         /\ int_text (trx / 256 ^ (6 - Z.of_nat w) - 2 ^ (8 * Z.of_nat w - 1)) t /\ read_replace line = Some (db, tb, v :: SStr t :: vs)) rows lines.
Proof.
  intros fuel rt files op sys tfile d sys_pages t db tb k c rest w pages rows HU HE H3 HI Hw Hnn W4 F1 F2 Hfuel.
  destruct (unique_taken fuel rt files op sys tfile d sys_pages t db tb [k] (c :: rest) pages rows HU HE H3 HI F1 F2 Hfuel) as [lines [ps [E [HP HL]]]].
  exists lines. split; [exact E|]. destruct HU as [[_ [_ [_ [_ [_ [_ [_ [_ [_ [[i [_ [_ [_ [_ [_ [Hnk _]]]]]]] _]]]]]]]]]] _]. inversion Hnk as [|? ? Nk _]; subst.
  rewrite HE in HP, HI. clear - HP HL HI Hw Hnn W4 Nk. revert lines HL. induction HP as [|r p rows ps [H1 [H2 [H4 HF]]] _ IH]; intros lines HL; inversion HL as [|? line ? lines' L1 L2]; subst; [constructor|].
  constructor; [|now apply IH]. clear IH. set (vv := values ([k] ++ c :: rest) (fst r)) in *. clearbody vv. unfold key_slots in H4, HF. cbn [map app] in H1, H4, HF. set (ff := snd r) in *. clearbody ff.
  inversion HI as [|? ? [kk Hkk] HI2]; subst.
  inversion H4 as [| |? ? v0 vs0 f0 fs0 E1 _ R1]; subst. inversion R1 as [|? ? ? b1 fs1 Lb R2|]; subst.
  inversion R2 as [|? ? ? b2 fs2 Lb2 R3|]; subst. inversion R3 as [| |? ? v1 vs1 f1 fs3 E2 _ R4]; subst. inversion HF as [|? ? ? ? F0 _]; subst.
  assert (NN : forall c v f, encodes rt c v f -> not_null c -> v <> SNull) by (intros ? ? ? X Y ->; inversion X; subst; unfold not_null in Y; congruence).
  assert (L0 : List.length (content f0) = kk).
  { destruct (int_layout k kk Hkk) as [EL _]. change (fits (slot_layout (User k)) f0) in F0. rewrite EL in F0. destruct f0 as [|o|o]; cbn [fits l_fixed l_nullable] in F0; [exfalso; apply (NN _ _ _ E1 Nk); now inversion E1|unfold zlen in F0; cbn [content]; lia|contradiction]. }
  assert (K0 : cd_len k = Z.of_nat kk) by apply Hkk. assert (K1 : cd_len c = Z.of_nat w) by apply Hw.
  destruct (int_layout c w Hw) as [_ Wp].
  inversion H1 as [| |? k0 ? ? ? z0 t0 b0 p0 N0 J0 Z0 T0 G0 X1 X2 X3]; subst; [exfalso; exact (NN _ _ _ E1 Nk eq_refl)|].
  inversion G0 as [| |? k1 ? ? ? z1 t1 b3 p1 N1 J1 Z1 T1 G1]; subst; [exfalso; exact (NN _ _ _ E2 Hnn eq_refl)|].
  unfold body in X3, H2. cbn [flat_map content] in X3, H2. apply Forall_app in H2 as [_ H2]. apply Forall_app in H2 as [H2 _].
  assert (L6 : List.length b1 = 6%nat) by (unfold zlen in Lb; lia). assert (k0 = List.length (content f0)) by lia. assert (k1 = w) by lia. subst k0 k1.
  assert (LS : forall n z, List.length (store_int n z) = n) by (intros; unfold store_int; apply be_length).
  destruct (app_eq_split _ _ _ _ _ X3 (LS _ _)) as [_ X4]. clear X3.
  exists f0, (be_val b1), (FBytes b2 :: f1 :: fs3), (SStr t0), t1, p1.
  split; [|split; [|split; [|exact L1]]].
  - rewrite <- L6. now rewrite be_of_val.
  - pose proof (be_val_bound b1 H2) as B. unfold len in B. rewrite L6 in B. exact B.
  - assert (EB : b1 = be w (be_val b1 / 256 ^ (6 - Z.of_nat w)) ++ be (6 - w) (be_val b1)).
    { replace (6 - Z.of_nat w) with (Z.of_nat (6 - w)) by lia. rewrite <- be_split. replace (w + (6 - w))%nat with 6%nat by lia. rewrite <- L6. symmetry. now apply be_of_val. }
    rewrite EB, <- app_assoc in X4. destruct (app_eq_split _ _ _ _ _ X4 ltac:(now rewrite LS, be_length)) as [X5 _]. unfold store_int in X5. apply (f_equal be_val) in X5.
    assert (PW : 256 ^ Z.of_nat w = 2 ^ (8 * Z.of_nat w - 1) * 2).
    { change 256 with (2 ^ 8). rewrite <- Z.pow_mul_r by lia. rewrite (Z.mul_comm (2 ^ (8 * Z.of_nat w - 1)) 2), <- Z.pow_succ_r by lia. f_equal. lia. }
    pose proof (be_val_bound b1 H2) as B. unfold len in B. rewrite L6 in B.
    assert (B2 : 0 <= be_val b1 / 256 ^ (6 - Z.of_nat w) < 256 ^ Z.of_nat w).
    { split; [apply Z.div_pos; [lia|apply Z.pow_pos_nonneg; lia]|]. apply Z.div_lt_upper_bound; [apply Z.pow_pos_nonneg; lia|]. rewrite <- Z.pow_add_r by lia. replace (6 - Z.of_nat w + Z.of_nat w) with (Z.of_nat 6) by lia. lia. }
    rewrite !be_val_be_small in X5 by lia. rewrite <- X5. replace (z1 + 2 ^ (8 * Z.of_nat w - 1) - 2 ^ (8 * Z.of_nat w - 1)) with z1 by lia. exact T1.
Qed.
Print Assumptions C129_second_refuted.
(** All columns in the key, in its order, and three of them or more. *)
Theorem C129_unique_partial : forall fuel rt files op sys tfile d sys_pages t db tb key pages rows,
  unique_fields rt (is_deleted op) d sys_pages t db tb key [] pages rows -> columns_of d (td_id t) = key -> (3 <= List.length key)%nat ->
  files sys = Some (map IoBytes sys_pages) -> files tfile = Some (map IoBytes pages) -> (Z.to_nat 16384 < fuel)%nat ->
  exists lines, FromDataFile fuel rt files op sys tfile db tb = (lines, Ok tt)
    /\ Forall2 (fun r line => read_replace line = Some (db, tb, values (columns_of d (td_id t)) (fst r))) rows lines.
Proof.
  intros fuel rt files op sys tfile d sys_pages t db tb key pages rows [HT HF] HE H3 F1 F2 Hfuel.
  destruct (unique_entry fuel rt d sys_pages t db tb key [] HT Hfuel) as [tm [e [Hd [HR [Hg [Ec Hids]]]]]].
  pose proof HT as [_ [Hc [Hnd [Ht [Hnm [Hdb [Hb1 [Hb2 [Hro _]]]]]]]]]. rewrite HE in *. rewrite app_nil_r in HF.
  assert (HH : file_holds rt (is_deleted op) (map User key) pages (map (fun r => values key (fst r)) rows)).
  { destruct HF as [Hi [contents [HP EC]]]. split; [exact Hi|]. exists (map (map fst) contents). split.
    - clear - HP. induction HP as [|p rs ps cs [offs [Hf [Hch HR]]] _ IH]; cbn [map]; constructor; [|exact IH]. exists true, offs. split; [exact Hf|]. split; [exact Hch|].
      clear - HR. induction HR as [|off r offs rows [Hu [HC [HE HE2]]] _ IH]; cbn [map]; constructor; [|exact IH]. split; [exact Hu|].
      destruct HC as [pre [header [post [EP [P1 [P2 [EO HF]]]]]]]. unfold key_slots in *. cbn [map app] in *.
      assert (S : forall k vs fs, row_encodes rt (map User k ++ [Own 6; Own 7]) vs fs -> exists f0 a b, fs = f0 ++ [FBytes a; FBytes b] /\ row_encodes rt (map User k) vs f0).
      { clear. induction k as [|c k IH]; intros vs fs H; cbn [map app] in H.
        - inversion H as [|? ? ? a ? _ H1|]; subst. inversion H1 as [|? ? ? b ? _ H2|]; subst. inversion H2; subst. exists [], a, b. split; [reflexivity|constructor].
        - inversion H as [| |? ? v vs' f fs' H1 H2 H3]; subst. destruct (IH _ _ H3) as [f0 [a [b [-> J]]]]. exists (f :: f0), a, b. split; [reflexivity|now constructor]. }
      destruct (S _ _ _ HE2) as [f0 [a [b [E J]]]]. rewrite E in *. clear S.
      assert (Lf : List.length (map slot_layout (map User key)) = List.length f0) by (clear - J; remember (map User key) as ss eqn:Es; clear Es; induction J; cbn [map List.length]; lia).
      rewrite map_app in EP, EO, HF. 
      assert (Q1 : forall ls fs, List.length ls = List.length fs -> lengths (ls ++ map slot_layout [Own 6; Own 7]) (fs ++ [FBytes a; FBytes b]) = lengths ls fs /\ null_flags (ls ++ map slot_layout [Own 6; Own 7]) (fs ++ [FBytes a; FBytes b]) = null_flags ls fs).
      { clear. induction ls as [|l ls IH]; intros [|f fs] H; try discriminate; [split; reflexivity|]. cbn [app lengths null_flags]. injection H as H. destruct (IH fs H) as [-> ->]. split; reflexivity. }
      destruct (Q1 _ _ Lf) as [Q2 Q3]. rewrite Q2 in EP, EO. rewrite Q3 in EP. clear Q1.
      rewrite nullable_app in EP, EO. change (nullable_count (map slot_layout [Own 6; Own 7])) with 0 in EP, EO. rewrite Z.add_0_r in EP, EO.
      unfold body in EP, HE. rewrite flat_map_app in EP, HE. fold (body f0) in EP, HE. rewrite <- app_assoc in EP.
      exists f0. split; [|split; [unfold zlen in *; rewrite app_length in HE; lia|exact J]].
      exists pre, header, (flat_map content [FBytes a; FBytes b] ++ post). split; [exact EP|]. split; [exact P1|]. split; [exact P2|]. split; [exact EO|].
      clear - HF Lf. revert f0 HF Lf. induction (map slot_layout (map User key)) as [|l ls IH]; intros [|f fs] HF Lf; try discriminate; [constructor|]. cbn [app] in HF. inversion HF; subst. constructor; [assumption|]. apply IH; [assumption|now injection Lf].
    - rewrite <- concat_map, EC, map_map. reflexivity. }
  destruct (tool_with fuel rt files op sys tfile d sys_pages t e db tb (map User key) pages (map (fun r => values key (fst r)) rows) tm) as [lines [E HL]]; try assumption.
  - rewrite Ec. now apply user_columns.
  - rewrite HE. symmetry. apply nullable_users.
  - rewrite Ec, map_length. exact H3.
  - destruct key as [|c cs]; [cbn in H3; lia|]. exists c. now left.
  - exists lines. split; [exact E|]. clear - HL. revert lines HL. induction rows as [|r rows IH]; intros lines HL; cbn [map] in HL; inversion HL as [|? ? ? ? H1 H2]; subst; [constructor|]. constructor; [exact H1|now apply IH].
Qed.
Print Assumptions C129_unique_partial.

(** u(a INT NOT NULL, b INT NOT NULL[, c INT NOT NULL], UNIQUE KEY k (…)). *)
Definition u_col (pos : Z) (name : list Z) : column_def := mkColumnDef 71 pos name 6 (256 + 3) 4.
Definition u_a : column_def := u_col 0 (txt "a").
Definition u_b : column_def := u_col 1 (txt "b").
Definition u_c : column_def := u_col 2 (txt "c").
Definition dict_u (key rest : list column_def) : dictionary :=
  mkDictionary [mkTableDef (txt "test/u") 71 5] (key ++ rest) [mkIndexDef 71 72 (txt "k") (zlen key) 3] (map (fun c => mkFieldDef 72 (cd_pos c) (cd_name c)) key).
Definition row_u : row := fun n => if list_eq_dec Z.eq_dec n (txt "a") then SStr (txt "1") else if list_eq_dec Z.eq_dec n (txt "b") then SStr (txt "2") else SStr (txt "3").
Definition page_u (key rest : list column_def) (fs : list stored) : list Z := built true 3 17855 72 (map (crec (map slot_layout (key_slots key rest))) [fs]).
Definition own_u : list stored := [FBytes (be 6 300); FBytes (be 7 5)].
Definition num_u (n : Z) : stored := FBytes (store_int 4 n).

Lemma u_dict key rest : Forall (fun c => cd_table c = 71) (key ++ rest) -> NoDup (map cd_name (key ++ rest)) -> key <> [] -> Forall not_null key -> fits_dict (dict_u key rest) = true ->
  rest = filter (fun c => negb (existsb (fun k => if list_eq_dec Z.eq_dec (cd_name k) (cd_name c) then true else false) key)) (key ++ rest) ->
  Forall (fun c => ordinary c /\ readable_column c) (key ++ rest) ->
  columns_of (dict_u key rest) 71 = key ++ rest /\ unique_table (dict_u key rest) (dict_pages (dict_u key rest)) (mkTableDef (txt "test/u") 71 5) (txt "test") (txt "u") key rest.
Proof.
  intros Hc Hn Hk Hnn Hfit Hr Ho. set (d := dict_u key rest).
  assert (EC : columns_of d 71 = key ++ rest) by (unfold columns_of, d; cbn [dict_u dd_columns]; clear - Hc; induction Hc as [|c l E _ IH]; [reflexivity|]; cbn [filter]; rewrite E; cbn [Z.eqb Pos.eqb]; now rewrite IH).
  split; [exact EC|].
  assert (One : forall x : Z, NoDup [x]) by (intro x; constructor; [intros []|constructor]).
  split; [now apply dict_built|]. split.
  { split; [apply One|]. split; [apply One|]. split; [|split; [|split; [|split]]].
    - intros t [<-|[]]. exists (txt "test"), (txt "u"). left. split; [reflexivity|]. split; cbn; lia.
    - intros i [<-|[]]. now left.
    - intro j. apply few. unfold indexes_of, d. cbn [dict_u dd_indexes filter id_table]. destruct (71 =? j); [now left|now right].
    - intro j. destruct (Z.eq_dec j 71) as [->|N]; [now rewrite EC|].
      assert (E : columns_of d j = []) by (unfold columns_of, d; cbn [dict_u dd_columns]; clear - Hc N; induction Hc as [|c l E _ IH]; [reflexivity|]; cbn [filter]; rewrite E; destruct (Z.eqb_spec 71 j) as [X|_]; [congruence|exact IH]).
      rewrite E. constructor.
    - intros i [<-|[]] X. discriminate X. }
  split; [constructor; [intros []|constructor]|]. split; [now left|]. split; [left; split; [reflexivity|split; cbn; lia]|]. split; [discriminate|]. split; [cbn; lia|]. split; [cbn; lia|].
  cbn [td_id]. split; [now rewrite EC|]. split.
  - exists (mkIndexDef 71 72 (txt "k") (zlen key) 3). split; [now left|]. split; [reflexivity|]. split.
    + unfold fields_of, d. cbn [dict_u dd_fields id_id]. clear. induction key as [|c l IH]; [reflexivity|]. cbn [map filter fd_index Z.eqb Pos.eqb fd_column]. now rewrite IH.
    + rewrite EC. split; [intros x Hx; apply in_or_app; now left|]. split; [exact Hk|]. split; [exact Hnn|exact Hr].
  - intros j [<-|[]]. split; intro X; discriminate X.
Qed.
Lemma u_page rt key rest fs vs : fine (crec (map slot_layout (key_slots key rest)) fs) -> zlen (blocks true 125 [crec (map slot_layout (key_slots key rest)) fs]) <= 16000 ->
  Forall2 fits (map slot_layout (key_slots key rest)) fs -> row_encodes rt (key_slots key rest) vs fs ->
  file_fields rt false (key_slots key rest) [page_u key rest fs] [(vs, fs)] /\ file_holds rt false (key_slots key rest) [page_u key rest fs] [vs].
Proof.
  intros Hf Hl Hfit Hre. set (ss := key_slots key rest) in *. set (ls := map slot_layout ss) in *. assert (Hfs : Forall fine (map (crec ls) [fs])) by (constructor; [exact Hf|constructor]).
  destruct (built_alone 3 72 _ Hfs Hl) as [Hi He]; try lia. fold ls in Hi, He. 
  assert (EP : page_u key rest fs = built true 3 17855 72 (map (crec ls) [fs])) by reflexivity. rewrite EP. split.
  - split; [exact Hi|]. rewrite He. exists [[(vs, fs)]]. split; [|reflexivity]. constructor; [|constructor].
    destruct (built_page true 3 17855 72 (map (crec ls) [fs])) as [P1 [_ [_ [_ [_ [_ [P2 P3]]]]]]]; try assumption; try lia.
    exists (origins 125 (map (crec ls) [fs])). split; [exact P1|]. split; [exact P2|]. destruct P1 as [[PL _] _]. clear Hl P2 Hi He EP. revert PL P3. generalize (built true 3 17855 72 (map (crec ls) [fs])) as page. generalize (origins 125 (map (crec ls) [fs])) as os.
    intros os page PL P3. cbn [map] in P3. inversion P3 as [|o ? os' ? HX P3']; subst. inversion P3'; subst. constructor; [|constructor]. destruct HX as [pre [l [post [E1 [E2 [E3 E4]]]]]].
    assert (EL : zlen page = zlen pre + zlen (low (crec ls fs)) + 2 + zlen (high (crec ls fs)) + zlen post) by (rewrite E1; change (@zlen) with (@len); rewrite !len_app, len_be; lia).
    rewrite PL in EL. split; [unfold user_origin; unfold zlen in *; lia|]. cbn [fst snd]. split; [|split; [cbn [crec high] in EL; lia|exact Hre]].
    cbn [crec low high] in *. exists pre, ([0; 0; 0] ++ be 2 l), post. split; [rewrite E1; now rewrite <- !app_assoc|]. split; [lia|].
    rewrite E2. change (@zlen) with (@len) in *. rewrite !len_app, len_rev, !len_be. change (len [0; 0; 0]) with 3. split; [lia|]. split; [|exact Hfit].
    pose proof (nullable_nonneg ls). rewrite Z2Nat.id by (apply Z.div_pos; lia). fold ls. lia.
  - split; [exact Hi|]. rewrite He. exists [[vs]]. split; [|reflexivity]. constructor; [|constructor]. apply page_built; try assumption; try lia. constructor; [split; assumption|constructor].
Qed.
Ltac u_number := constructor; [apply enc_int; try reflexivity; try (cbn; lia); number|plain_text|].
Ltac u_own := constructor; [reflexivity|constructor; [reflexivity|]].
Example C129_case : forall rt,
  (unique_input rt false (dict_u [u_a] [u_b]) (dict_pages (dict_u [u_a] [u_b])) (mkTableDef (txt "test/u") 71 5) (txt "test") (txt "u") [u_a] [u_b] [page_u [u_a] [u_b] (num_u 1 :: own_u ++ [num_u 2])] [row_u]
   /\ (List.length (columns_of (dict_u [u_a] [u_b]) 71) <= 2)%nat)
  /\ (unique_fields rt false (dict_u [u_a] [u_b; u_c]) (dict_pages (dict_u [u_a] [u_b; u_c])) (mkTableDef (txt "test/u") 71 5) (txt "test") (txt "u") [u_a] [u_b; u_c]
        [page_u [u_a] [u_b; u_c] (num_u 1 :: own_u ++ [num_u 2; num_u 3])] [(row_u, num_u 1 :: own_u ++ [num_u 2; num_u 3])]
      /\ columns_of (dict_u [u_a] [u_b; u_c]) 71 = [u_a] ++ u_b :: [u_c] /\ Forall (fun c => exists k, signed_int c k) [u_a; u_b; u_c] /\ signed_int u_b 4 /\ not_null u_b)
  /\ (unique_fields rt false (dict_u [u_a; u_b; u_c] []) (dict_pages (dict_u [u_a; u_b; u_c] [])) (mkTableDef (txt "test/u") 71 5) (txt "test") (txt "u") [u_a; u_b; u_c] []
        [page_u [u_a; u_b; u_c] [] ([num_u 1; num_u 2; num_u 3] ++ own_u)] [(row_u, [num_u 1; num_u 2; num_u 3] ++ own_u)]
      /\ columns_of (dict_u [u_a; u_b; u_c] []) 71 = [u_a; u_b; u_c]).
Proof.
  intro rt. assert (SI : forall p n, signed_int (u_col p n) 4) by (intros; split; [reflexivity|]; split; [cbn; lia|]; split; [reflexivity|]; split; [reflexivity|cbn; lia]).
  destruct (u_dict [u_a] [u_b]) as [A1 A2]; [repeat constructor|distinct|discriminate|repeat constructor|vm_compute; reflexivity|reflexivity|ordinary_columns|].
  destruct (u_dict [u_a] [u_b; u_c]) as [B1 B2]; [repeat constructor|distinct|discriminate|repeat constructor|vm_compute; reflexivity|reflexivity|ordinary_columns|].
  destruct (u_dict [u_a; u_b; u_c] []) as [C1 C2]; [repeat constructor|distinct|discriminate|repeat constructor|vm_compute; reflexivity|reflexivity|ordinary_columns|].
  split; [|split].
  - split; [|rewrite A1; cbn; lia]. split; [exact A2|].
    apply (u_page rt [u_a] [u_b] (num_u 1 :: own_u ++ [num_u 2]) [SStr (txt "1"); SStr (txt "2")]);
      [match goal with |- fine ?x => assert (X : Forall fine [x]) by (apply fine_check; vm_compute; reflexivity); now inversion X end|vm_compute; discriminate|repeat (constructor; [vm_compute; reflexivity|]); constructor|].
    unfold key_slots, own_u, num_u. cbn [map app]. u_number. u_own. u_number. constructor.
  - split; [|split; [exact B1|split; [repeat constructor; eexists; apply SI|split; [apply SI|reflexivity]]]]. split; [exact B2|].
    apply (u_page rt [u_a] [u_b; u_c] (num_u 1 :: own_u ++ [num_u 2; num_u 3]) [SStr (txt "1"); SStr (txt "2"); SStr (txt "3")]);
      [match goal with |- fine ?x => assert (X : Forall fine [x]) by (apply fine_check; vm_compute; reflexivity); now inversion X end|vm_compute; discriminate|repeat (constructor; [vm_compute; reflexivity|]); constructor|].
    unfold key_slots, own_u, num_u. cbn [map app]. u_number. u_own. u_number. u_number. constructor.
  - split; [|exact C1]. split; [exact C2|].
    apply (u_page rt [u_a; u_b; u_c] [] ([num_u 1; num_u 2; num_u 3] ++ own_u) [SStr (txt "1"); SStr (txt "2"); SStr (txt "3")]);
      [match goal with |- fine ?x => assert (X : Forall fine [x]) by (apply fine_check; vm_compute; reflexivity); now inversion X end|vm_compute; discriminate|repeat (constructor; [vm_compute; reflexivity|]); constructor|].
    unfold key_slots, own_u, num_u. cbn [map app]. u_number. u_number. u_number. u_own. constructor.
Qed.
