(** C35: what becomes of VARCHAR columns in character sets like latin1 (main
    type 1), which are taken to have a fixed length. *)
From Coq Require Import ZifyBool.
From Verif Require Import GoBase Utils Ibdata SpecInno SpecText SpecSql SpecRecord SpecRow SpecPage SpecDict
  PBase PWire PValue PText PRec PPage PTypes PSql PFile PropValue PropRec PropFile PBuild PropTool PropGeometry.
Local Open Scope list_scope.
Local Open Scope Z_scope.

(** A VARCHAR with character set latin1, the default of MySQL 5.7, for texts of
    up to [n] bytes *)
Definition latin1_varchar (c : Column) (n : Z) : Prop := c_type c = innodb_varchar /\ c_mysql c = field_varchar /\ c_len c = n /\ 0 < n < 65536.

(** * COMPACT records *)
(** Read with a fixed length [n] for a column that varies: the column is the
    [n] bytes that follow the ones before it, whatever its length, and those
    behind it follow. *)
Lemma misfit_at page off ls1 l ls2 fs1 v fs2 n w gs rest :
  compact_at page off (ls1 ++ l :: ls2) (fs1 ++ FBytes v :: fs2) -> List.length ls1 = List.length fs1 -> l_fixed l = None ->
  Forall fixed_layout ls2 -> Forall2 same_shape fs2 gs -> zlen w = n ->
  skipn (Z.to_nat (off + zlen (body fs1))) page = w ++ body gs ++ rest ->
  compact_at page off (ls1 ++ mkLayout (l_nullable l) (Some n) false :: ls2) (fs1 ++ FBytes w :: gs).
Proof.
  intros (pre & header & post & Epage & Hpre & Hhd & Hoff & HF) Hll Hl H2 HS Hw Hsk. set (l' := mkLayout (l_nullable l) (Some n) false).
  apply Forall2_app_inv_l in HF. destruct HF as [a [b [F1 [F2 E]]]]. inversion F2 as [|? y ? b' Hy Hr]; subst b.
  assert (La : List.length fs1 = List.length a) by (rewrite <- Hll; exact (forall2_length _ _ _ F1)).
  assert (fs1 = a /\ FBytes v :: fs2 = y :: b') as [<- E2].
  { clear - E La. revert a E La. induction fs1 as [|f fs1 IH]; intros [|x a] E La; try discriminate; [split; [reflexivity|exact E]|]. cbn [app] in E. injection E as <- E.
    destruct (IH a E ltac:(now injection La)) as [<- X]. split; [reflexivity|exact X]. }
  injection E2 as <- <-. destruct (shape_fits ls2 H2 _ _ Hr HS) as [G1 G2].
  assert (EL : lengths (ls1 ++ l :: ls2) (fs1 ++ FBytes v :: fs2) = lengths ls1 fs1 ++ length_bytes l (FBytes v)) by (rewrite lengths_two by exact Hll; cbn [lengths]; rewrite (lengths_fixed ls2 H2 _ Hr); now rewrite app_nil_r).
  assert (EL' : lengths (ls1 ++ l' :: ls2) (fs1 ++ FBytes w :: gs) = lengths ls1 fs1) by (rewrite lengths_two by exact Hll; cbn [lengths]; rewrite (lengths_fixed ls2 H2 _ G1); apply app_nil_r).
  assert (EN : null_flags (ls1 ++ l' :: ls2) (fs1 ++ FBytes w :: gs) = null_flags (ls1 ++ l :: ls2) (fs1 ++ FBytes v :: fs2)) by (rewrite !flags_two by exact Hll; cbn [null_flags]; rewrite G2; reflexivity).
  assert (EC : nullable_count (ls1 ++ l' :: ls2) = nullable_count (ls1 ++ l :: ls2)) by (unfold nullable_count; rewrite !filter_app; unfold zlen; rewrite !app_length; cbn [filter l' l_nullable]; now destruct (l_nullable l)).
  set (bits := be (Z.to_nat ((nullable_count (ls1 ++ l :: ls2) + 7) / 8)) (flags_number (null_flags (ls1 ++ l :: ls2) (fs1 ++ FBytes v :: fs2)))) in *.
  assert (EB : body (fs1 ++ FBytes v :: fs2) ++ post = body fs1 ++ w ++ body gs ++ rest).
  { rewrite <- Hsk. unfold body at 1. rewrite flat_map_app. fold (body fs1). rewrite <- app_assoc. f_equal. rewrite Epage. unfold body at 2. rewrite flat_map_app. fold (body fs1).
    assert (LB : zlen bits = (nullable_count (ls1 ++ l :: ls2) + 7) / 8).
    { unfold bits, zlen. rewrite be_length, Z2Nat.id; [reflexivity|]. apply Z.div_pos; [|lia]. unfold nullable_count, zlen. lia. }
    set (X := flat_map content (FBytes v :: fs2)). replace (pre ++ rev (lengths (ls1 ++ l :: ls2) (fs1 ++ FBytes v :: fs2)) ++ bits ++ header ++ (body fs1 ++ X) ++ post)
      with ((pre ++ rev (lengths (ls1 ++ l :: ls2) (fs1 ++ FBytes v :: fs2)) ++ bits ++ header ++ body fs1) ++ X ++ post) by (rewrite <- !app_assoc; reflexivity).
    symmetry. apply skipn_app_exact. unfold zlen in *. rewrite !app_length, rev_length. lia. }
  exists (pre ++ rev (length_bytes l (FBytes v))), header, rest. rewrite EL', EN, EC. fold bits. rewrite EL, EB, rev_app_distr in Epage. rewrite EL in Hoff. repeat split.
  - rewrite Epage. unfold body at 3. rewrite flat_map_app. cbn [flat_map content]. fold (body fs1) (body gs). rewrite <- !app_assoc. reflexivity.
  - unfold zlen in *. rewrite app_length. lia.
  - exact Hhd.
  - rewrite Hoff. unfold zlen. rewrite !app_length, rev_length. lia.
  - apply Forall2_app; [exact F1|]. constructor; [|exact G1]. exact Hw.
Qed.
Theorem C35_place_partial : forall rt tm page off cols1 c cols2 ls1 l ls2 fs1 v fs2 n w gs rest table c0 row,
  compact_page page -> compact_at page off (ls1 ++ l :: ls2) (fs1 ++ FBytes v :: fs2) -> List.length ls1 = List.length fs1 ->
  Forall2 describes cols1 ls1 -> latin1_varchar c n -> c_null c = l_nullable l -> l_fixed l = None ->
  Forall2 describes cols2 ls2 -> Forall fixed_layout ls2 ->
  Forall2 same_shape fs2 gs -> zlen w = n -> skipn (Z.to_nat (off + zlen (body fs1))) page = w ++ body gs ++ rest ->
  Forall2 same_column (cols1 ++ c :: cols2) (t_columns table) -> t_nullcount table = nullable_count (ls1 ++ l :: ls2) ->
  (3 <= List.length (cols1 ++ c :: cols2))%nat -> hd_error cols1 = Some c0 -> mget tm (c_table c0) = Some table ->
  row_of rt rest (cols1 ++ c :: cols2) (ls1 ++ mkLayout (l_nullable l) (Some n) false :: ls2) (fs1 ++ FBytes w :: gs) row ->
  parsePage_record rt tm page off (cols1 ++ c :: cols2) = (remarks (cols1 ++ c :: cols2) (fs1 ++ FBytes w :: gs), Ok (Some row)).
Proof.
  intros rt tm page off cols1 c cols2 ls1 l ls2 fs1 v fs2 n w gs rest table c0 row Hp Hat Hll HD1 (Hc1 & Hc2 & Hc3 & Hn0) Hc4 Hl HD2 H2 HS Hw Hsk HT Hn H3 H0 Ht HR.
  assert (HD : Forall2 describes (cols1 ++ c :: cols2) (ls1 ++ mkLayout (l_nullable l) (Some n) false :: ls2)).
  { apply Forall2_app; [exact HD1|]. constructor; [|exact HD2]. split; [exact Hc4|]. cbn [l_fixed]. rewrite Hc1, Hc3. split; [lia|]. split; [reflexivity|]. unfold innodb_varchar. cbn. lia. }
  pose proof (misfit_at _ _ _ _ _ _ _ _ _ _ _ _ Hat Hll Hl H2 HS Hw Hsk) as Hat'.
  apply (C34_row rt tm page off _ (ls1 ++ mkLayout (l_nullable l) (Some n) false :: ls2) (fs1 ++ FBytes w :: gs) table c0); try assumption.
  - now apply (same_columns_describe (cols1 ++ c :: cols2)).
  - rewrite Hn. unfold nullable_count. rewrite !filter_app. unfold zlen. rewrite !app_length. cbn [filter l_nullable]. now destruct (l_nullable l).
  - destruct cols1; [discriminate|exact H0].
  - replace (skipn _ page) with rest; [exact HR|]. destruct (compact_skip page off _ _ Hat') as [post' [Hs1 [Ho0 _]]].
    assert (Ha : forall k, 0 <= k -> skipn (Z.to_nat (off + k)) page = skipn (Z.to_nat k) (skipn (Z.to_nat off) page)).
    { intros k Hk. rewrite skipn_skipn. f_equal. lia. }
    rewrite Ha in Hsk by (unfold zlen; lia). rewrite Ha by (unfold zlen; lia).
    unfold body at 1. rewrite flat_map_app. cbn [flat_map content]. fold (body fs1) (body gs).
    replace (Z.to_nat (zlen (body fs1 ++ w ++ body gs))) with (Z.to_nat (zlen (body fs1)) + List.length (w ++ body gs))%nat by (unfold zlen; rewrite !app_length; lia).
    rewrite <- skipn_skipn, Hsk, app_assoc. symmetry. now apply skipn_app_exact.
Qed.
Print Assumptions C35_place_partial.
(** With the VARCHAR as the last column: what is printed for a text of [n]
    bytes or less is the text and the bytes behind the record, [n] in all, and
    so another text unless it has all the [n] bytes. *)
Theorem C35_varchar_refuted : forall rt tm page off cols c ls l fs v n after table c0 row,
  compact_page page -> compact_at page off (ls ++ [l]) (fs ++ [FBytes v]) ->
  Forall2 describes cols ls -> latin1_varchar c n -> c_null c = l_nullable l -> l_fixed l = None -> zlen v <= n ->
  after = skipn (Z.to_nat (off + zlen (body fs) + zlen v)) page -> n <= zlen v + zlen after ->
  Forall2 same_column (cols ++ [c]) (t_columns table) -> t_nullcount table = nullable_count (ls ++ [l]) ->
  (2 <= List.length cols)%nat -> hd_error cols = Some c0 -> mget tm (c_table c0) = Some table ->
  row_of rt (v ++ after) cols ls fs row ->
  let w := v ++ firstn (Z.to_nat (n - zlen v)) after in
  parsePage_record rt tm page off (cols ++ [c]) = (remarks cols fs, Ok (Some (row ++ [set_value c (VStr w) (c_binary c)])))
  /\ (w = v <-> zlen v = n).
Proof.
  intros rt tm page off cols c ls l fs v n after table c0 row Hp Hat HD Hc Hc4 Hl Hv Ea Hn1 HT Hn H2 H0 Ht HR w.
  assert (Hll : List.length ls = List.length fs).
  { destruct Hat as (? & ? & ? & _ & _ & _ & _ & HF). apply forall2_length in HF. rewrite !app_length in HF. cbn in HF. lia. }
  assert (Hlc : List.length cols = List.length fs) by (rewrite (forall2_length _ _ _ HD); exact Hll).
  set (k := Z.to_nat (n - zlen v)) in *. pose proof Hc as (Hc1 & Hc2 & Hc3 & Hn0).
  assert (Lw : zlen w = n) by (unfold w, zlen in *; rewrite app_length, firstn_length_le; lia).
  assert (Hsk : skipn (Z.to_nat (off + zlen (body fs))) page = v ++ after).
  { destruct (compact_skip page off _ _ Hat) as [post' [Hs1 [Ho0 _]]].
    assert (Ha : forall k, 0 <= k -> skipn (Z.to_nat (off + k)) page = skipn (Z.to_nat k) (skipn (Z.to_nat off) page)).
    { intros q Hq. rewrite skipn_skipn. f_equal. lia. }
    unfold body in Hs1. rewrite flat_map_app in Hs1. cbn [flat_map content] in Hs1. fold (body fs) in Hs1. rewrite app_nil_r, <- app_assoc in Hs1.
    rewrite Ea, <- Z.add_assoc, !Ha by (unfold zlen; lia). rewrite Hs1. replace (Z.to_nat (zlen (body fs) + zlen v)) with (List.length (body fs) + List.length v)%nat by (unfold zlen; lia).
    rewrite <- skipn_skipn. unfold zlen. rewrite Nat2Z.id, !(skipn_app_exact (List.length (body fs))) by reflexivity. now rewrite skipn_app_exact. }
  split.
  - replace (remarks cols fs) with (remarks (cols ++ [c]) (fs ++ [FBytes w])).
    2: { rewrite remarks_app by exact Hlc. cbn [remarks]. unfold remark. rewrite Hc1. cbn. now rewrite app_nil_r. }
    assert (Ew : v ++ after = w ++ skipn k after) by (unfold w; rewrite <- app_assoc, firstn_skipn; reflexivity).
    apply (C35_place_partial rt tm page off cols c [] ls l [] fs v [] n w [] (skipn k after) table c0); try assumption; try constructor.
    + rewrite Hsk. exact Ew.
    + rewrite app_length. cbn. lia.
    + apply row_snoc; [discriminate| |cbn [content]; rewrite <- Ew; exact HR]. cbn [content l_fixed]. rewrite Hc1, Hc2. apply C19_text_exact. now left.
  - split; intro X; [rewrite X in Lw; exact Lw|]. unfold w, k. rewrite X, Z.sub_diag. apply app_nil_r.
Qed.
Print Assumptions C35_varchar_refuted.

(** Tables with any number of such VARCHARs, anywhere among columns of fixed
    length: the bytes from the origin of the record on are cut up by the lengths
    of the dictionary. *)
Definition taken_fixed (c : Column) (l : layout) : Prop :=
  c_null c = l_nullable l
  /\ ((exists n, latin1_varchar c n /\ l_fixed l = None) \/ (l_fixed l = Some (c_len c) /\ 0 < c_len c /\ ~ In (c_type c) [5; 12; 13])).
Definition wrong_layout (c : Column) : layout := mkLayout (c_null c) (Some (c_len c)) false.
Fixpoint cut (cols : list Column) (fs : list stored) (b : list Z) : option (list stored * list Z) :=
  match cols, fs with
  | [], [] => Some ([], b)
  | _ :: cs, FNull :: fs' => match cut cs fs' b with Some (gs, r) => Some (FNull :: gs, r) | None => None end
  | c :: cs, _ :: fs' =>
    if c_len c <=? zlen b then
      match cut cs fs' (skipn (Z.to_nat (c_len c)) b) with
      | Some (gs, r) => Some (FBytes (firstn (Z.to_nat (c_len c)) b) :: gs, r)
      | None => None
      end
    else None
  | _, _ => None
  end.
Definition full (c : Column) (f : stored) : Prop := f = FNull \/ exists v, f = FBytes v /\ zlen v = c_len c.
Lemma cut_wrong : forall cols ls fs, Forall2 taken_fixed cols ls -> Forall2 fits ls fs -> forall b gs r, cut cols fs b = Some (gs, r) ->
  b = body gs ++ r /\ Forall2 fits (map wrong_layout cols) gs /\ null_flags (map wrong_layout cols) gs = null_flags ls fs.
Proof.
  intros cols ls fs HT. revert fs. induction HT as [|c l cols ls [Hc HX] HT IH]; intros fs HF b gs r E; inversion HF as [|? f ? fs' H1 H2]; subst fs; cbn [cut] in E.
  - injection E as <- <-. split; [reflexivity|]. split; [constructor|reflexivity].
  - assert (Hpos : 0 < c_len c) by (destruct HX as [[n [(_ & _ & X & Y) _]]|[_ [X _]]]; lia).
    destruct (is_null f) eqn:En.
    + destruct f; try discriminate. destruct (cut cols fs' b) as [[gs' r']|] eqn:Ec; [|discriminate]. injection E as <- <-.
      destruct (IH fs' H2 b gs' r' Ec) as [A [B C]]. split; [exact A|]. split; [|cbn [map null_flags is_null]; rewrite C; cbn [wrong_layout l_nullable]; now rewrite Hc].
      constructor; [|exact B]. cbn in *. congruence.
    + assert (E' : (if c_len c <=? zlen b then match cut cols fs' (skipn (Z.to_nat (c_len c)) b) with Some (gs, r) => Some (FBytes (firstn (Z.to_nat (c_len c)) b) :: gs, r) | None => None end else None) = Some (gs, r)) by (destruct f; [discriminate|exact E|exact E]).
      clear E. destruct (c_len c <=? zlen b) eqn:El; [|discriminate]. destruct (cut cols fs' _) as [[gs' r']|] eqn:Ec; [|discriminate]. injection E' as <- <-.
      destruct (IH fs' H2 _ gs' r' Ec) as [A [B C]]. split; [|split].
      * cbn [body flat_map content]. rewrite <- app_assoc. fold (body gs'). rewrite <- A. symmetry. apply firstn_skipn.
      * constructor; [|exact B]. cbn. unfold zlen in *. rewrite firstn_length_le; lia.
      * cbn [map null_flags]. rewrite C. cbn [wrong_layout l_nullable is_null]. now rewrite Hc, En.
Qed.
Lemma cut_full : forall cols fs b gs r, cut cols fs b = Some (gs, r) -> Forall (fun c => 0 < c_len c) cols ->
  (exists post, b = body fs ++ post) -> (gs = fs <-> Forall2 full cols fs).
Proof.
  induction cols as [|c cols IH]; intros fs b gs r E HP [post Hb]; destruct fs as [|f fs]; cbn [cut] in E; try discriminate.
  - injection E as <- <-. split; [constructor|reflexivity].
  - inversion HP as [|? ? Hc HP']; subst. destruct f as [|v|v].
    + destruct (cut cols fs _) as [[gs' r']|] eqn:Ec; [|discriminate]. injection E as <- <-. destruct (IH _ _ _ _ Ec HP' ltac:(exists post; reflexivity)) as [I1 I2]. split.
      * intro X. injection X as X. constructor; [now left|now apply I1].
      * intro X. inversion X; subst. f_equal. now apply I2.
    + destruct (c_len c <=? _) eqn:El; [|discriminate]. destruct (cut cols fs _) as [[gs' r']|] eqn:Ec; [|discriminate]. injection E as <- <-.
      cbn [body flat_map content] in *. fold (body fs) in *. rewrite <- app_assoc in *.
      assert (Hgo : zlen v = c_len c -> firstn (Z.to_nat (c_len c)) (v ++ body fs ++ post) = v /\ (gs' = fs <-> Forall2 full cols fs)).
      { intro Hv. assert (Hn : Z.to_nat (c_len c) = List.length v) by (unfold zlen in Hv; lia). rewrite Hn in *. split; [rewrite firstn_app, Nat.sub_diag, firstn_all; apply app_nil_r|].
        rewrite skipn_app_exact in Ec by reflexivity. apply (IH _ _ _ _ Ec HP'). now exists post. }
      split.
      * intro X. injection X as X1 X2. assert (Hv : zlen v = c_len c) by (rewrite <- X1; unfold zlen in *; rewrite firstn_length_le; lia).
        constructor; [right; now exists v|]. now apply (Hgo Hv).
      * intro X. inversion X as [|? ? ? ? X1 X2]; subst. destruct X1 as [X1|[v' [X1 Hv]]]; [discriminate|]. injection X1 as <-. destruct (Hgo Hv) as [-> G]. f_equal. now apply G.
    + destruct (c_len c <=? _) eqn:El; [|discriminate]. destruct (cut cols fs _) as [[gs' r']|] eqn:Ec; [|discriminate]. injection E as <- <-. split; [discriminate|].
      intro X. inversion X as [|? ? ? ? X1 X2]; subst. destruct X1 as [X1|[v' [X1 Hv]]]; discriminate.
Qed.
Lemma cut_shape : forall cols fs b gs r, cut cols fs b = Some (gs, r) -> forall i c v, nth_error cols i = Some c -> 0 < c_len c -> nth_error fs i = Some (FBytes v) ->
  exists w, nth_error gs i = Some (FBytes w) /\ zlen w = c_len c.
Proof.
  induction cols as [|c cols IH]; intros fs b gs r E i d v Hd Hp Hf; destruct fs as [|f fs]; cbn [cut] in E; try discriminate; [destruct i; discriminate|].
  assert (E' : exists g b' gs' r', cut cols fs b' = Some (gs', r') /\ gs = g :: gs' /\ (f <> FNull -> c_len c <= zlen b /\ g = FBytes (firstn (Z.to_nat (c_len c)) b))).
  { destruct f as [|x|x]; [destruct (cut cols fs b) as [[gs' r']|] eqn:Ec; [|discriminate]; injection E as <- <-; exists FNull, b, gs', r'; repeat split; congruence| |];
      (destruct (c_len c <=? zlen b) eqn:El; [|discriminate]; destruct (cut cols fs _) as [[gs' r']|] eqn:Ec; [|discriminate]; injection E as <- <-; eexists _, _, gs', r'; split; [exact Ec|]; split; [reflexivity|]; intros _; split; [lia|reflexivity]). }
  destruct E' as (g & b' & gs' & r' & Ec & -> & Hg). destruct i as [|i]; cbn [nth_error] in *.
  - injection Hd as ->. injection Hf as ->. destruct Hg as [Hl ->]; [discriminate|]. eexists. split; [reflexivity|]. unfold zlen in *. rewrite firstn_length_le; lia.
  - exact (IH fs b' gs' r' Ec i d v Hd Hp Hf).
Qed.
Lemma row_text rt after : forall cols ls gs row, row_of rt after cols ls gs row -> forall i c n w, nth_error cols i = Some c -> latin1_varchar c n -> nth_error gs i = Some (FBytes w) ->
  nth_error row i = Some (set_value c (VStr w) (c_binary c)).
Proof.
  induction 1 as [|c cs l ls fs r HR IH|c cs l ls f fs v bin r Hf Ev HR IH]; intros [|i] d n w Hd HV Hw; cbn [nth_error] in *; try discriminate.
  - exact (IH i d n w Hd HV Hw).
  - injection Hd as ->. injection Hw as ->. destruct HV as (Hd1 & Hd2 & _). cbn [content] in Ev. rewrite Hd1, Hd2 in Ev. change (@zlen) with (@len) in Ev. rewrite C19_text_exact in Ev by (now left).
    injection Ev as _ <- <-. reflexivity.
  - exact (IH i d n w Hd HV Hw).
Qed.
Lemma wrong_positive cols ls : Forall2 taken_fixed cols ls -> Forall (fun c => 0 < c_len c) cols.
Proof. induction 1 as [|c l cols ls [_ HX] _ IH]; constructor; [|exact IH]. destruct HX as [[n [(_ & _ & X & Y) _]]|[_ [X _]]]; lia. Qed.
Lemma wrong_describes cols ls : Forall2 taken_fixed cols ls -> Forall2 describes cols (map wrong_layout cols).
Proof.
  induction 1 as [|c l cols ls [_ HX] _ IH]; cbn [map]; constructor; [|exact IH]. split; [reflexivity|]. cbn [wrong_layout l_fixed].
  destruct HX as [[n [(X1 & _ & X & Y) _]]|[_ [X X1]]]; (split; [lia|]; split; [reflexivity|]); [rewrite X1; unfold innodb_varchar; cbn; lia|exact X1].
Qed.
Lemma wrong_count cols ls : Forall2 taken_fixed cols ls -> nullable_count (map wrong_layout cols) = nullable_count ls.
Proof.
  intro HF. unfold nullable_count, zlen. f_equal. induction HF as [|c l cols ls [HN _] _ IH]; [reflexivity|]. cbn [map filter wrong_layout l_nullable]. rewrite HN. destruct (l_nullable l); cbn [List.length]; now rewrite IH.
Qed.
Lemma wrong_at page off cols ls fs gs rest : Forall2 taken_fixed cols ls -> compact_at page off ls fs -> cut cols fs (skipn (Z.to_nat off) page) = Some (gs, rest) ->
  compact_at page off (map wrong_layout cols) gs.
Proof.
  intros HF (pre & header & post & Epage & Hpre & Hhd & Hoff & HFit) Hcut. pose proof (wrong_count _ _ HF) as HC.
  destruct (cut_wrong cols ls fs HF HFit _ _ _ Hcut) as [EB [G1 G2]].
  assert (EL : lengths (map wrong_layout cols) gs = []).
  { apply lengths_fixed; [|exact G1]. clear. induction cols; constructor; [now eexists|assumption]. }
  assert (EP : body fs ++ post = body gs ++ rest).
  { rewrite <- EB, Epage. set (bits := be _ _).
    assert (LB : zlen bits = (nullable_count ls + 7) / 8).
    { unfold bits, zlen. rewrite be_length, Z2Nat.id; [reflexivity|]. apply Z.div_pos; [|lia]. unfold nullable_count, zlen. lia. }
    replace (pre ++ rev (lengths ls fs) ++ bits ++ header ++ body fs ++ post) with ((pre ++ rev (lengths ls fs) ++ bits ++ header) ++ body fs ++ post) by (rewrite <- !app_assoc; reflexivity).
    symmetry. apply skipn_app_exact. unfold zlen in *. rewrite !app_length, rev_length. lia. }
  exists (pre ++ rev (lengths ls fs)), header, rest. rewrite EL, G2, HC. split; [rewrite Epage, EP, <- !app_assoc; reflexivity|]. split; [unfold zlen in *; rewrite app_length; lia|].
  split; [exact Hhd|]. split; [rewrite Hoff; unfold zlen; rewrite app_length, rev_length; cbn [List.length]; lia|exact G1].
Qed.
Lemma wrong_rest page off cols ls fs gs rest : Forall2 taken_fixed cols ls -> compact_at page off ls fs -> cut cols fs (skipn (Z.to_nat off) page) = Some (gs, rest) ->
  skipn (Z.to_nat (off + zlen (body gs))) page = rest.
Proof.
  intros HF Hat Hcut. pose proof (wrong_at _ _ _ _ _ _ _ HF Hat Hcut) as Hat'. pose proof Hat as (_ & _ & _ & _ & _ & _ & _ & HFit). destruct (cut_wrong cols ls fs HF HFit _ _ _ Hcut) as [EB _].
  destruct (compact_skip page off _ _ Hat') as [post' [Hs1 [_ [_ Hp']]]]. change (@len) with (@zlen) in Hp'. rewrite <- Hp'. rewrite Hs1 in EB. now apply app_inv_head in EB.
Qed.
Theorem C35_several_refuted : forall rt tm page off cols ls fs gs rest table c0 row,
  compact_page page -> compact_at page off ls fs -> Forall2 taken_fixed cols ls ->
  cut cols fs (skipn (Z.to_nat off) page) = Some (gs, rest) ->
  Forall2 same_column cols (t_columns table) -> t_nullcount table = nullable_count ls ->
  (3 <= List.length cols)%nat -> hd_error cols = Some c0 -> mget tm (c_table c0) = Some table ->
  row_of rt rest cols (map wrong_layout cols) gs row ->
  parsePage_record rt tm page off cols = (remarks cols gs, Ok (Some row))
  /\ (gs = fs <-> Forall2 full cols fs)
  /\ forall i c n v, nth_error cols i = Some c -> latin1_varchar c n -> nth_error fs i = Some (FBytes v) ->
       exists w, zlen w = n /\ nth_error row i = Some (set_value c (VStr w) (c_binary c)).
Proof.
  intros rt tm page off cols ls fs gs rest table c0 row Hp Hat HF Hcut HT Hn H3 H0 Ht HR.
  destruct (compact_skip page off _ _ Hat) as [post0 [Hs0 [Ho0 _]]]. split; [|split].
  - apply (C34_row rt tm page off _ (map wrong_layout cols) gs table c0); try assumption.
    + now apply (wrong_at page off cols ls fs gs rest).
    + now apply (wrong_describes cols ls).
    + apply (same_columns_describe cols); [exact HT|now apply (wrong_describes cols ls)].
    + now rewrite (wrong_count cols ls).
    + now rewrite (wrong_rest page off cols ls fs gs rest).
  - apply (cut_full _ _ _ _ _ Hcut (wrong_positive _ _ HF)). now exists post0.
  - intros i c n v Hc HV Hf. pose proof HV as (_ & _ & Hl & Hn0). destruct (cut_shape _ _ _ _ _ Hcut i c v Hc ltac:(lia) Hf) as [w [W1 W2]].
    exists w. split; [lia|]. exact (row_text _ _ _ _ _ _ HR i c n w Hc HV W1).
Qed.
Print Assumptions C35_several_refuted.

(** Whole files: the records of the pages that are read, each cut up in this
    way, and the lines that are printed. *)
Inductive cut_rows (rt : runtime) (page : list Z) (cols : list Column) (ls : list layout) :
  list Z -> list (list stored * list stored) -> list (list Column) -> list bytes -> Prop :=
| cut_rows_nil : cut_rows rt page cols ls [] [] [] []
| cut_rows_cons off offs fs fss gs rest row rows lines :
    user_origin off -> compact_at page off ls fs -> cut cols fs (skipn (Z.to_nat off) page) = Some (gs, rest) ->
    row_of rt rest cols (map wrong_layout cols) gs row -> cut_rows rt page cols ls offs fss rows lines ->
    cut_rows rt page cols ls (off :: offs) ((fs, gs) :: fss) (row :: rows) (remarks cols gs ++ lines).
Definition page_cut (rt : runtime) (deleted : bool) (cols : list Column) (ls : list layout) (page : list Z)
    (content : list (list stored * list stored) * (list bytes * list (list Column))) : Prop :=
  exists offs, compact_page page
    /\ (if deleted then free_chain true page offs /\ hd_error offs = Some (field page 44 2)
        else chain true page (infimum true) offs (supremum true))
    /\ cut_rows rt page cols ls offs (fst content) (snd (snd content)) (fst (snd content)).
(** The place of the [i]-th column in the statements, if it is the user's *)
Definition place_of (cols : list Column) (i : nat) : nat := List.length (user_columns (firstn i cols)).
(** For each text stored in such a VARCHAR the piece of [n] bytes at its place
    is printed (as NULL, if it reads NULL). *)
Definition padded (cols : list Column) (r : list stored * list stored) (vs : list sqlval) : Prop :=
  forall i c n v, nth_error cols i = Some c -> latin1_varchar c n -> c_binary c = false -> internal c = false -> nth_error (fst r) i = Some (FBytes v) ->
    exists w, zlen w = n /\ nth_error (snd r) i = Some (FBytes w)
      /\ nth_error vs (place_of cols i) = Some (if list_eq_dec Z.eq_dec w (txt "NULL") then SNull else SStr w).
Lemma internal_not c : internal c = true <-> SpecRow.internal c.
Proof.
  unfold internal, SpecRow.internal. rewrite existsb_exists. split.
  - intros [n [Hn H]]. destruct (list_eq_dec Z.eq_dec (c_name c) n) as [->|]; [|discriminate]. destruct Hn as [<-|[<-|[<-|[]]]]; tauto.
  - intro H. exists (c_name c). split; [destruct H as [->|[->| ->]]; cbn; tauto|]. now destruct (list_eq_dec Z.eq_dec (c_name c) (c_name c)).
Qed.
Lemma shows_place rt after : forall cols ls gs row, row_of rt after cols ls gs row -> forall vs, shows rt row vs ->
  forall i c n w, nth_error cols i = Some c -> latin1_varchar c n -> c_binary c = false -> internal c = false -> nth_error gs i = Some (FBytes w) ->
  nth_error vs (place_of cols i) = Some (if list_eq_dec Z.eq_dec w (txt "NULL") then SNull else SStr w).
Proof.
  assert (HI : forall c d, c_name c = c_name d -> internal c = internal d) by (intros c d E; unfold internal; now rewrite E).
  induction 1 as [|c cs l ls fs r HR IH|c cs l ls f fs v bin r Hf Ev HR IH]; intros vs HS [|i] d n w Hd HV Hb Hi Hw; cbn [nth_error] in *; try discriminate.
  - unfold place_of. cbn [firstn user_columns filter]. inversion HS as [|? ? ? N HS'|? ? ? ? N _ _ HS']; subst.
    + assert (internal c = true) as -> by (apply internal_not in N; rewrite <- N; now apply HI). cbn [negb]. exact (IH _ HS' i d n w Hd HV Hb Hi Hw).
    + assert (internal c = false) as -> by (apply not_true_iff_false; intro X; apply N, internal_not; rewrite <- X; now apply HI).
      cbn [negb List.length nth_error]. exact (IH _ HS' i d n w Hd HV Hb Hi Hw).
  - injection Hd as ->. injection Hw as ->. destruct HV as (Hd1 & Hd2 & _). cbn [content] in Ev. rewrite Hd1, Hd2 in Ev. change (@zlen) with (@len) in Ev. rewrite C19_text_exact in Ev by (now left).
    injection Ev as _ <- <-. unfold place_of. cbn [firstn user_columns filter List.length nth_error]. inversion HS as [|? ? ? N HS'|? ? ? ? N HX HP HS']; subst.
    + exfalso. apply internal_not in N. assert (X : internal d = true) by (rewrite <- N; now apply HI). congruence.
    + f_equal. inversion HX as [? [HN|HN] _|? t HT _ _|? ? ? _ _ _ B|? ? HN _ _]; subst; cbn [c_value c_binary] in *; try discriminate.
      * injection HN as HN. rewrite HN. now destruct (list_eq_dec Z.eq_dec (txt "NULL") (txt "NULL")).
      * inversion HT; subst. destruct HP as [_ [HP _]]. now destruct (list_eq_dec Z.eq_dec t (txt "NULL")).
      * congruence.
  - unfold place_of. cbn [firstn user_columns filter]. inversion HS as [|? ? ? N HS'|? ? ? ? N _ _ HS']; subst.
    + assert (internal c = true) as -> by (apply internal_not in N; rewrite <- N; now apply HI). cbn [negb]. exact (IH _ HS' i d n w Hd HV Hb Hi Hw).
    + assert (internal c = false) as -> by (apply not_true_iff_false; intro X; apply N, internal_not; rewrite <- X; now apply HI).
      cbn [negb List.length nth_error]. exact (IH _ HS' i d n w Hd HV Hb Hi Hw).
Qed.

Theorem C35_file_refuted : forall rt tm pages db tb deleted cols ls contents vals fuel c0 table,
  Forall page_image pages -> is_table tm db tb cols -> Forall2 taken_fixed cols ls -> (3 <= List.length cols)%nat ->
  hd_error cols = Some c0 -> mget tm (c_table c0) = Some table -> Forall2 same_column cols (t_columns table) -> t_nullcount table = nullable_count ls ->
  Forall2 (page_cut rt deleted cols ls) (filter (eligible deleted) (firsts pages)) contents ->
  Forall2 (fun content vss => Forall2 (fun row vs => shows rt row vs /\ vs <> []) (snd (snd content)) vss) contents vals ->
  ~ In 96 db -> ~ In 96 tb -> (Z.to_nat 16384 < fuel)%nat ->
  exists lines, ParseDataPage fuel rt tm (Some (map IoBytes pages)) db tb deleted = (lines, Ok None)
    /\ file_lines db tb (map snd contents) vals lines
    /\ Forall2 (fun content vss => Forall2 (padded cols) (fst content) vss) contents vals
    /\ Forall (fun content => Forall (fun r => snd r = fst r <-> Forall2 full cols (fst r)) (fst content)) contents.
Proof.
  intros rt tm pages db tb deleted cols ls contents vals fuel c0 table Hi Ht HF H3 H0 Hm HS Hn HC HV Hd Htb Hfuel.
  assert (HC' : Forall2 (page_content rt tm deleted cols (map wrong_layout cols)) (filter (eligible deleted) (firsts pages)) (map snd contents)).
  { clear - HC HF H0 Hm HS Hn. induction HC as [|page ct ps cts (offs & Hp & Hch & HR) _ IH]; cbn [map]; constructor; [|exact IH].
    exists true, offs. split; [exact Hp|]. split; [intros _; exists c0, table; split; [exact H0|]; split; [exact Hm|]; split; [apply (same_columns_describe cols); [exact HS|now apply (wrong_describes cols ls)]|now rewrite (wrong_count cols ls)]|].
    split; [exact Hch|]. clear - HR HF. induction HR as [|off offs fs fss gs rest row rows lines Hu Hat Hc Hrow _ IH]; constructor; try assumption.
    - cbn [stored_at]. now apply (wrong_at page off cols ls fs gs rest).
    - rewrite (wrong_rest page off cols ls fs gs rest) by assumption. exact Hrow. }
  destruct (C75_lines rt tm pages db tb deleted cols (map wrong_layout cols) (map snd contents) vals fuel) as [lines [E1 E2]]; try assumption.
  - now apply (wrong_describes cols ls).
  - clear - HV. induction HV; cbn [map]; constructor; assumption.
  - exists lines. split; [exact E1|]. split; [exact E2|]. split.
    + clear - HC HV. revert vals HV. induction HC as [|page ct ps cts (offs & Hp & Hch & HR) _ IH]; intros vals HV; inversion HV as [|? vss ? vals' V1 V2]; subst; constructor; [|now apply IH].
      clear - HR V1. revert vss V1. induction HR as [|off offs fs fss gs rest row rows lines Hu Hat Hc Hrow _ IH]; intros vss HV; inversion HV as [|? vs ? vss' [V1 _] V2]; subst; constructor; [|now apply IH].
      intros i c n v Hci HL Hb Hint Hf. cbn [fst snd] in *. pose proof HL as (_ & _ & Hl & Hn0). destruct (cut_shape _ _ _ _ _ Hc i c v Hci ltac:(lia) Hf) as [w [W1 W2]].
      exists w. split; [lia|]. split; [exact W1|]. exact (shows_place _ _ _ _ _ _ Hrow vs V1 i c n w Hci HL Hb Hint W1).
    + clear - HC HF. assert (HP := wrong_positive cols ls HF). induction HC as [|page ct ps cts (offs & Hp & Hch & HR) _ IH]; constructor; [|exact IH].
      clear - HR HP. induction HR as [|off offs fs fss gs rest row rows lines Hu Hat Hc Hrow _ IH]; constructor; [|exact IH]. cbn [fst snd].
      destruct (compact_skip page off _ _ Hat) as [post0 [Hs0 _]]. apply (cut_full _ _ _ _ _ Hc HP). now exists post0.
Qed.
Print Assumptions C35_file_refuted.

(** * REDUNDANT records *)
(** A record with a text that has less than the [n] bytes (and is not empty, if
    the column may be NULL) is not read, and with it the rest of its page. *)
Theorem C35_redundant_refuted : forall rt tm page off wide cols fs i c n v,
  redundant_page page -> redundant_at page off wide fs -> List.length cols = List.length fs -> (3 <= List.length cols)%nat ->
  nth_error cols i = Some c -> nth_error fs i = Some (RBytes v) -> latin1_varchar c n -> zlen v < n -> (v = [] -> c_null c = false) ->
  parsePage_record rt tm page off cols = ([], Ok None)
  /\ forall fuel supremum, off < 16378 -> off <> supremum -> parsePage_loop (S fuel) rt tm page supremum off cols = ([], Ok ([], cols)).
Proof.
  intros rt tm page off wide cols fs i c n v [Hpi Hcp] Hat Hlf Hn3 Hc Hf (Hc1 & Hc2 & Hc3 & Hn0) Hv Hv0.
  destruct (redundant_skip page off wide fs Hat) as [post [Hsk [Ho0 [Hle Hpost]]]].
  pose proof Hpi as [Hpl Hpb]. change (zlen page) with (len page) in Hpl.
  assert (Hbl : len (body (map plain fs)) = len (rbody fs)) by now rewrite body_plain.
  assert (E0 : parsePage_record rt tm page off cols = ([], Ok None)).
  { unfold parsePage_record. rewrite slice_from_ok by (pose proof (len_nonneg (rbody fs)); lia). rewrite wbind_lift.
    destruct (page_format page Hpi) as [_ [E _]]. rewrite E. clear E. rewrite wbind_lift.
    replace (128 <=? nth 42 page 0) with false by lia. change (0 =? 0) with true. cbv iota.
    rewrite Hlf. destruct (offsets_old page off wide fs Hpb Hat) as [x E]; [lia|lia|]. rewrite E. clear E.
    cbn [bind]. rewrite wbind_lift. cbn beta iota. set (os := [0; _; _] ++ _).
    assert (Hos : holds os (map plain fs)) by (unfold holds, os; eauto).
    assert (Hfx : col_fixed c = n) by (unfold col_fixed, GetFixedLength; rewrite Hc1, Hc3; reflexivity).
    pose proof (check_false os _ Hos ltac:(lia) cols 0 (map plain fs) i c (FBytes v) eq_refl ltac:(rewrite map_length; exact Hlf) Hc ltac:(rewrite nth_error_map, Hf; reflexivity) ltac:(lia) ltac:(lia)
      ltac:(cbn [content]; change (@len) with (@zlen); lia) ltac:(cbn [content]; intro X; apply Hv0; destruct v; [reflexivity|cbn in X; lia])) as Hcs. change (Z.of_nat 0) with 0 in Hcs.
    rewrite Hcs. reflexivity. }
  split; [exact E0|]. intros fuel sup H1 H2. cbn [parsePage_loop]. change (16384 - 6) with 16378. replace (off <? 16378) with true by lia. replace (off =? sup) with false by lia. cbn [negb andb]. rewrite E0. reflexivity.
Qed.
Print Assumptions C35_redundant_refuted.

(** A table with an INT key and a VARCHAR(5): a row with 5 and ab *)
Definition vcol5 : Column := dcol "v" innodb_varchar field_varchar 5 false.
Definition ab_cols : list Column := [dcol "id" 6 3 4 false; dcol "DB_TRX_ID" 0 0 6 false; dcol "DB_ROLL_PTR" 0 0 7 false; vcol5].
Definition ab_lays : list layout := [fixed 4; fixed 6; fixed 7; inno_layout 1 5 false true].
Definition ab_row : list stored := [FBytes [128; 0; 0; 5]; FBytes (repeat 1 6); FBytes (repeat 2 7); FBytes (txt "ab")].
Definition ab_old : list rstored := [RBytes [128; 0; 0; 5]; RBytes (repeat 1 6); RBytes (repeat 2 7); RBytes (txt "ab")].
Example C35_varchar_case : latin1_varchar vcol5 5 /\ l_fixed (inno_layout 1 5 false true) = None
  /\ compact_page (page_of 128 (vmiddle ab_lays ab_row)) /\ compact_at (page_of 128 (vmiddle ab_lays ab_row)) 106 ab_lays ab_row
  /\ (forall rt after, exists row, row_of rt after (firstn 3 ab_cols) (firstn 3 ab_lays) (firstn 3 ab_row) row)
  /\ (forall rt, exists r, parsePage_record rt [(7, mkTable (txt "d") (txt "t") ab_cols [] 0 0)] (page_of 128 (vmiddle ab_lays ab_row)) 106 ab_cols = ([], Ok (Some r))
        /\ nth_error (map c_value r) 3 = Some (VStr (txt "ab" ++ [0; 0; 0])))
  /\ exists page, redundant_page page /\ redundant_at page 110 false ab_old /\ forall rt tm, parsePage_record rt tm page 110 ab_cols = ([], Ok None).
Proof.
  split; [unfold latin1_varchar; cbn; lia|]. split; [reflexivity|]. split; [|split; [|split; [|split]]].
  - destruct (page_of_image 128 (vmiddle ab_lays ab_row)) as [H1 H2]; [lia|apply bytes_check; reflexivity|cbv; discriminate|]. split; [exact H1|rewrite H2; lia].
  - apply (vmiddle_at ab_lays ab_row); [reflexivity|repeat constructor].
  - intros rt after. eexists. cbn [firstn ab_cols ab_lays ab_row]. eapply row_quiet; [discriminate|exact (int_five rt _)|]. do 2 (eapply row_quiet; [discriminate|reflexivity|]). constructor.
  - intro rt. eexists. split; [vm_compute; reflexivity|reflexivity].
  - set (m := rev (ends (2 ^ 7) 0 ab_old) ++ [0; 0; 0; 1; 0; 0] ++ rbody ab_old). exists (page_of 0 m).
    assert (Hp : redundant_page (page_of 0 m)).
    { destruct (page_of_image 0 m) as [H1 H2]; [lia|apply bytes_check; reflexivity|cbv; discriminate|]. split; [exact H1|rewrite H2; lia]. }
    assert (Ha : redundant_at (page_of 0 m) 110 false ab_old).
    { exists (repeat 0 42 ++ [0] ++ repeat 0 57), [0; 0; 0; 1; 0; 0], (repeat 0 (Z.to_nat (16284 - zlen m))).
      cbv zeta. split; [unfold page_of, m; rewrite <- !app_assoc; reflexivity|]. repeat split. }
    split; [exact Hp|]. split; [exact Ha|]. intros rt tm.
    apply (C35_redundant_refuted rt tm (page_of 0 m) 110 false ab_cols ab_old 3 vcol5 5 (txt "ab")); try assumption; try reflexivity; try discriminate; [cbn; lia|unfold latin1_varchar; cbn; lia].
Qed.

(** Two VARCHAR(5)s: a row with 5, ab and xyz *)
Definition abx_cols : list Column := ab_cols ++ [dcol "w" innodb_varchar field_varchar 5 true].
Definition abx_lays : list layout := ab_lays ++ [inno_layout 1 5 true true].
Definition abx_row : list stored := ab_row ++ [FBytes (txt "xyz")].
Example C35_several_case : compact_page (page_of 128 (rev (lengths abx_lays abx_row) ++ be 1 (flags_number (null_flags abx_lays abx_row)) ++ repeat 0 5 ++ body abx_row))
  /\ compact_at (page_of 128 (rev (lengths abx_lays abx_row) ++ be 1 (flags_number (null_flags abx_lays abx_row)) ++ repeat 0 5 ++ body abx_row)) 108 abx_lays abx_row
  /\ Forall2 taken_fixed abx_cols abx_lays /\ ~ Forall2 full abx_cols abx_row
  /\ (forall post, 5 <= zlen post -> exists gs rest, cut abx_cols abx_row (body abx_row ++ post) = Some (gs, rest) /\ nth_error gs 3 = Some (FBytes (txt "abxyz"))
       /\ forall rt, exists row, row_of rt rest abx_cols (map wrong_layout abx_cols) gs row).
Proof.
  split; [|split; [|split; [|split]]].
  - destruct (page_of_image 128 (rev (lengths abx_lays abx_row) ++ be 1 (flags_number (null_flags abx_lays abx_row)) ++ repeat 0 5 ++ body abx_row)) as [H1 H2]; [lia|apply bytes_check; reflexivity|cbv; discriminate|]. split; [exact H1|rewrite H2; lia].
  - exists (repeat 0 42 ++ [128] ++ repeat 0 57), (repeat 0 5), (repeat 0 (Z.to_nat (16284 - zlen (rev (lengths abx_lays abx_row) ++ be 1 (flags_number (null_flags abx_lays abx_row)) ++ repeat 0 5 ++ body abx_row)))).
    split; [unfold page_of; rewrite <- !app_assoc; reflexivity|]. repeat split; try (vm_compute; reflexivity); try (vm_compute; discriminate). repeat constructor.
  - unfold abx_cols, ab_cols, abx_lays, ab_lays. cbn [app].
    do 3 (constructor; [split; [reflexivity|right; split; [reflexivity|split; [reflexivity|cbn; lia]]]|]).
    do 2 (constructor; [split; [reflexivity|left; exists 5; split; [unfold latin1_varchar; cbn; lia|reflexivity]]|]). constructor.
  - intro X. do 3 (inversion X as [|? ? ? ? _ X']; subst; clear X; rename X' into X). inversion X as [|? ? ? ? Y _]; subst. destruct Y as [Y|[v [Y Z]]]; [discriminate|]. injection Y as <-. discriminate Z.
  - intros post Hpost. destruct post as [|p1 [|p2 [|p3 [|p4 [|p5 post]]]]]; try (cbn in Hpost; lia).
    eexists _, _. split; [|split; [|]].
    + change (body abx_row ++ p1 :: p2 :: p3 :: p4 :: p5 :: post) with ([128; 0; 0; 5; 1; 1; 1; 1; 1; 1; 2; 2; 2; 2; 2; 2; 2; 97; 98; 120; 121; 122; p1; p2; p3; p4; p5] ++ post).
      unfold abx_cols, ab_cols, abx_row, ab_row. cbn [app cut c_len dcol vcol5 txt].
      change (Z.to_nat 4) with 4%nat. change (Z.to_nat 5) with 5%nat. change (Z.to_nat 6) with 6%nat. change (Z.to_nat 7) with 7%nat. cbn [skipn firstn].
      repeat match goal with |- context [?a <=? zlen ?b] => replace (a <=? zlen b) with true by (unfold zlen; cbn [List.length]; lia) end. reflexivity.
    + reflexivity.
    + intro rt. eexists. eapply row_quiet; [discriminate|exact (int_five rt _)|]. do 2 (eapply row_quiet; [discriminate|reflexivity|]). do 2 (eapply row_quiet; [discriminate|apply (C19_text_exact rt innodb_varchar field_varchar [_; _; _; _; _]); now left|]). constructor.
Qed.
(** A page with this row and fghij behind it: it is printed as 5, abxyz and
    fghij. *)
Definition abx_read : list stored := [FBytes [128; 0; 0; 5]; FBytes (repeat 1 6); FBytes (repeat 2 7); FBytes (txt "abxyz"); FBytes (txt "fghij")].
Definition abx_recs : list rec := [mkRec (low (crec abx_lays abx_row)) (body abx_row ++ txt "fghij")].
Definition abx_page : list Z := built true 3 17855 53 abx_recs.
Definition abx_out : list Column := map (fun cv => set_value (fst cv) (snd cv) false) (combine abx_cols [VInt 5; VNil; VNil; VStr (txt "abxyz"); VStr (txt "fghij")]).
Lemma abx_cut post : cut abx_cols abx_row ((body abx_row ++ txt "fghij") ++ post) = Some (abx_read, post).
Proof.
  change ((body abx_row ++ txt "fghij") ++ post) with ([128; 0; 0; 5; 1; 1; 1; 1; 1; 1; 2; 2; 2; 2; 2; 2; 2; 97; 98; 120; 121; 122; 102; 103; 104; 105; 106] ++ post).
  unfold abx_cols, ab_cols, abx_row, ab_row. cbn [app cut c_len dcol vcol5 txt].
  change (Z.to_nat 4) with 4%nat. change (Z.to_nat 5) with 5%nat. change (Z.to_nat 6) with 6%nat. change (Z.to_nat 7) with 7%nat. cbn [skipn firstn].
  repeat match goal with |- context [?a <=? zlen ?b] => replace (a <=? zlen b) with true by (unfold zlen; cbn [List.length]; lia) end. reflexivity.
Qed.
Lemma abx_row_read rt after : row_of rt after abx_cols (map wrong_layout abx_cols) abx_read abx_out.
Proof.
  unfold abx_read, abx_out, abx_cols, ab_cols. cbn [app map combine fst snd set_value]. eapply row_quiet; [discriminate|exact (int_five rt _)|]. do 2 (eapply row_quiet; [discriminate|reflexivity|]).
  do 2 (eapply row_quiet; [discriminate|apply C19_text_exact; now left|]). constructor.
Qed.
Lemma only_one {A B} (P : A -> B -> Prop) l b : Forall2 P l [b] -> exists a, l = [a] /\ P a b.
Proof. intro H. inversion H as [|a ? l' ? H1 H2]; subst. inversion H2; subst. now exists a. Qed.
Example C35_file_case : forall rt, let tm := [(7, mkTable (txt "d") (txt "t") abx_cols [] 1 0)] in
  Forall page_image [abx_page] /\ filter (eligible false) (firsts [abx_page]) = [abx_page]
  /\ is_table tm (txt "d") (txt "t") abx_cols /\ (exists table, mget tm 7 = Some table /\ t_columns table = abx_cols /\ t_nullcount table = nullable_count abx_lays)
  /\ page_cut rt false abx_cols abx_lays abx_page ([(abx_row, abx_read)], ([], [abx_out]))
  /\ shows rt abx_out [SStr (txt "5"); SStr (txt "abxyz"); SStr (txt "fghij")].
Proof.
  intros rt tm. assert (Hf : Forall fine abx_recs) by (apply fine_check; vm_compute; reflexivity).
  assert (Hl : zlen (blocks true 125 abx_recs) <= 16000) by (vm_compute; discriminate).
  destruct (built_alone 3 53 _ Hf Hl) as [Hi He]; try lia. split; [exact Hi|]. split; [exact He|]. split; [|split; [|split]].
  - split; [eexists _, _; split; [now left|split; reflexivity]|]. intros id t [X|[]] _ _. injection X as <- <-. reflexivity.
  - eexists. split; [reflexivity|]. split; reflexivity.
  - destruct (built_page true 3 17855 53 abx_recs Hf Hl) as [P1 [_ [_ [_ [_ [_ [P2 P3]]]]]]]; try lia. exists (origins 125 abx_recs). split; [exact P1|]. split; [exact P2|]. destruct P1 as [[PL _] _].
    fold abx_page in PL, P3. revert PL P3. generalize abx_page as page. generalize (origins 125 abx_recs) as os. intros os page PL P3. apply only_one in P3 as [o [-> HX]].
    destruct HX as [pre [l [post [E1 [E2 [E3 E4]]]]]]. cbn [low high] in E1, E2. change (low (crec abx_lays abx_row)) with [3; 2; 0; 0; 0; 0] in *. change (zlen [3; 2; 0; 0; 0; 0]) with 6 in E2.
    assert (EL : zlen page = zlen pre + 6 + 2 + 27 + zlen post) by (rewrite E1; change (@zlen) with (@len); rewrite !len_app, len_be; change (len [3; 2; 0; 0; 0; 0]) with 6; change (len (body abx_row)) with 22; change (len (txt "fghij")) with 5; lia).
    rewrite PL in EL. change (@nil bytes) with (remarks abx_cols abx_read ++ @nil bytes).
    apply (cut_rows_cons rt page abx_cols abx_lays o [] abx_row [] abx_read post abx_out [] []); [unfold user_origin, zlen in *; lia| | |apply abx_row_read|constructor].
    + exists pre, ([0; 0; 0] ++ be 2 l), (txt "fghij" ++ post). split; [rewrite E1; rewrite <- !app_assoc; reflexivity|]. split; [unfold zlen in *; lia|].
      split; [change (@zlen) with (@len); rewrite len_app, len_be; reflexivity|]. split; [rewrite E2; change (zlen (lengths abx_lays abx_row)) with 2; change ((nullable_count abx_lays + 7) / 8) with 1; lia|].
      repeat (constructor; [vm_compute; reflexivity|]). constructor.
    + replace (skipn (Z.to_nat o) page) with ((body abx_row ++ txt "fghij") ++ post); [apply abx_cut|]. rewrite E1.
      replace (pre ++ [3; 2; 0; 0; 0; 0] ++ be 2 l ++ (body abx_row ++ txt "fghij") ++ post) with ((pre ++ [3; 2; 0; 0; 0; 0] ++ be 2 l) ++ (body abx_row ++ txt "fghij") ++ post) by (now rewrite <- !app_assoc).
      symmetry. apply skipn_app_exact. pose proof (len_be 2 l) as X. unfold len in X. unfold zlen in *. rewrite !app_length. cbn [List.length]. lia.
  - unfold abx_out, abx_cols, ab_cols. cbn [app map combine fst snd set_value].
    apply shows_user; [intros [X|[X|X]]; discriminate|apply st_text; [apply text_int; number|intro X; discriminate X|reflexivity]|plain_text|].
    apply shows_internal; [right; left; reflexivity|]. apply shows_internal; [right; right; reflexivity|].
    do 2 (apply shows_user; [intros [X|[X|X]]; discriminate|apply st_text; [apply text_str|intro X; discriminate X|reflexivity]|plain_text|]). constructor.
Qed.
