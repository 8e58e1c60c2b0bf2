(** Proofs about COMPACT records that run past the end of their page (C39, C44). *)
From Coq Require Import ZifyBool.
From Verif Require Import GoBase Utils Ibdata SpecInno SpecText SpecRecord SpecRow SpecPage PBase PWire PRec PPage.
Local Open Scope list_scope.

(** what one column gives, [rec] being what the page holds of the record *)
Definition cut_value (rt : runtime) (rec : bytes) (p : Z) (c : Column) (l : layout) (f : stored) : W Column :=
  if len rec <? p then wlift Panic
  else match f with
  | FNull => wret (set_value c (VStr (bs "NULL")) (c_binary c))
  | _ => if len rec <? p + len (content f) then wret c
         else
           '(v, bin) <-w ParseData rt (c_type c) (c_mysql c) (skipn (Z.to_nat p) rec) (len (content f))
              (match l_fixed l with Some n => n | None => 0 end) (c_unsigned c) (c_binary c) ;;
           wret (set_value c v bin)
  end.
Fixpoint cut_values (rt : runtime) (rec : bytes) (p : Z) (cols : list Column) (ls : list layout) (fs : list stored) : W (list Column) :=
  match cols, ls, fs with
  | c :: cs, l :: ls', f :: fs' =>
    c' <-w cut_value rt rec p c l f ;;
    cs' <-w cut_values rt rec (p + len (content f)) cs ls' fs' ;;
    wret (c' :: cs')
  | _, _, _ => wret []
  end.

Lemma cut_field rt rec os fs i f c l : holds os fs -> len (body fs) < 2 ^ 30 -> len rec < 4294967295 ->
  nth_error fs i = Some f -> describes c l -> fits0 l f ->
  parseField rt rec os (Z.of_nat i) c = cut_value rt rec (len (body (firstn i fs))) c l f.
Proof.
  intros Ho Hb Hlr Hnth Hc Hf. unfold parseField, RecGetNthField, cut_value.
  rewrite (field_offs os fs i f Ho Hnth Hb). cbn [bind].
  assert (Hsub : len (body (firstn i fs)) + len (content f) + len (body (skipn (S i) fs)) = len (body fs)).
  { rewrite (body_split fs i f Hnth) at 1. rewrite !len_app. lia. }
  pose proof (len_nonneg (body (skipn (S i) fs))). pose proof (len_nonneg (body (firstn i fs))). pose proof (len_nonneg (content f)).
  set (p := len (body (firstn i fs))) in *.
  destruct (Z.ltb_spec (len rec) p) as [Hp|Hp].
  - rewrite slice_from_panic by lia. reflexivity.
  - rewrite slice_from_ok by lia. cbn [bind]. rewrite wbind_lift. cbn beta iota. rewrite len_skipn, Z2Nat.id by lia.
    rewrite (col_fixed_of c l Hc).
    destruct f as [|b|b]; cbn [content] in *.
    + replace (len rec - p <? 4294967295) with true by lia. change (4294967295 =? 4294967295) with true. reflexivity.
    + replace (len rec - p <? len b) with (len rec <? p + len b) by lia. destruct (Z.ltb_spec (len rec) (p + len b)).
      * replace (len b =? 4294967295) with false by lia. reflexivity.
      * rewrite (fits_fixed l (FBytes b) Hf) by (cbn [content]; lia || discriminate). reflexivity.
    + replace (len rec - p <? len b) with (len rec <? p + len b) by lia. destruct (Z.ltb_spec (len rec) (p + len b)).
      * replace (len b =? 4294967295) with false by lia. reflexivity.
      * rewrite (fits_fixed l (FExtern b) Hf) by (cbn [content]; lia || discriminate). reflexivity.
Qed.
Lemma firstn_next fs i f : nth_error fs i = Some f -> len (body (firstn (S i) fs)) = len (body (firstn i fs)) + len (content f).
Proof.
  revert fs. induction i as [|i IH]; intros [|h fs] Hg; try discriminate.
  - injection Hg as ->. cbn. rewrite app_nil_r. reflexivity.
  - cbn [nth_error] in Hg. specialize (IH fs Hg). change (firstn (S (S i)) (h :: fs)) with (h :: firstn (S i) fs).
    change (firstn (S i) (h :: fs)) with (h :: firstn i fs). cbn [body flat_map]. fold (body (firstn (S i) fs)) (body (firstn i fs)).
    rewrite !len_app. lia.
Qed.
Lemma cut_fields rt rec os fs : holds os fs -> len (body fs) < 2 ^ 30 -> len rec < 4294967295 ->
  forall cols ls rest i, skipn i fs = rest -> Forall2 describes cols ls -> Forall2 fits0 ls rest ->
  parseFields rt rec os (Z.of_nat i) cols = cut_values rt rec (len (body (firstn i fs))) cols ls rest.
Proof.
  intros Ho Hb Hlr. induction cols as [|c cols IH]; intros ls rest i Hs HC HF; [reflexivity|].
  inversion HC as [|? l ? ls' Hc HC']; subst ls. inversion HF as [|? f ? fs' Hf HF' E1 E2].
  rewrite <- E2 in Hs. destruct (skipn_cons_nth fs i f fs' Hs) as [Hnth Hskip].
  cbn [parseFields cut_values]. replace (Z.of_nat i + 1) with (Z.of_nat (S i)) by lia.
  rewrite (IH ls' fs' (S i) Hskip HC' HF'). rewrite (cut_field rt rec os fs i f c l) by assumption.
  rewrite (firstn_next fs i f Hnth). reflexivity.
Qed.

Lemma record_cut rt tm page beyond off cols ls fs table c0 :
  compact_page page -> compact_at (page ++ beyond) off ls fs -> off <= 16384 -> len (body fs) < 65536 ->
  Forall2 describes cols ls -> Forall2 describes (t_columns table) ls -> t_nullcount table = nullable_count ls ->
  (3 <= List.length cols)%nat -> hd_error cols = Some c0 -> mget tm (c_table c0) = Some table ->
  parsePage_record rt tm page off cols
  = (r <-w cut_values rt (skipn (Z.to_nat off) page) 0 cols ls fs ;; wret (Some r)).
Proof.
  intros [Hpi Hcp] (pre & header & post & Hp & Hpre & Hh & Hoff & HF) Hend Hbody HC HC2 Hnc Hn3 Hc0 Hm.
  change (@zlen) with (@len) in *.
  assert (HF0 : Forall2 fits0 ls fs) by (eapply forall2_impl; [apply fits_fits0|exact HF]).
  pose proof Hpi as [Hpl Hpb]. change (zlen page) with (len page) in Hpl.
  set (front := pre ++ rev (lengths ls fs) ++ be (Z.to_nat ((nullable_count ls + 7) / 8)) (flags_number (null_flags ls fs)) ++ header) in *.
  assert (Hfl : len front = off).
  { unfold front. rewrite !len_app, len_rev, len_be, Hh. pose proof (nullable_nonneg ls). lia. }
  pose proof (len_nonneg front) as Hf0.
  assert (Hpage : page = front ++ skipn (Z.to_nat off) page).
  { rewrite <- (firstn_skipn (Z.to_nat off) page) at 1. f_equal.
    apply (f_equal (firstn (Z.to_nat off))) in Hp.
    rewrite firstn_app in Hp. replace (Z.to_nat off - List.length page)%nat with 0%nat in Hp by (unfold len in *; lia).
    rewrite firstn_O, app_nil_r in Hp. rewrite Hp.
    replace (pre ++ _) with (front ++ body fs ++ post) by (unfold front; rewrite <- !app_assoc; reflexivity).
    rewrite firstn_app. replace (Z.to_nat off - List.length front)%nat with 0%nat by (unfold len in *; lia).
    rewrite firstn_O, app_nil_r. apply firstn_all2. unfold len in *. lia. }
  unfold parsePage_record. rewrite slice_from_ok by lia. rewrite wbind_lift.
  destruct (page_format page Hpi) as [_ [E _]]. rewrite E. clear E. rewrite wbind_lift.
  replace (128 <=? nth 42 page 0) with true by lia. change (32768 =? 0) with false. cbv iota.
  destruct cols as [|c cols']; [discriminate|]. injection Hc0 as ->. rewrite index_0. cbn [bind]. rewrite Hm.
  assert (Hl2 : List.length (t_columns table) = List.length (c0 :: cols')).
  { rewrite (forall2_length _ _ _ HC2). symmetry. exact (forall2_length _ _ _ HC). }
  set (cols := c0 :: cols') in *. rewrite <- Hl2.
  assert (Hlf : List.length fs = List.length cols).
  { rewrite <- (forall2_length _ _ _ HF). symmetry. exact (forall2_length _ _ _ HC). }
  assert (Eos : ibRecInitOffsetsNew page off (zeros (List.length (t_columns table) * 2)) table
    = Ok ([0; len (t_columns table); 0] ++ entries 0 fs ++ zeros (List.length (t_columns table) - 3))).
  { rewrite Hpage at 1. unfold front at 1. rewrite <- !app_assoc.
    apply (offsets_front pre header (skipn (Z.to_nat off) page) off table (t_columns table) ls fs); try assumption; try reflexivity; try lia.
    unfold front in Hpage. rewrite <- !app_assoc in Hpage. rewrite <- Hpage. exact Hpb. }
  rewrite Eos. cbn [bind]. rewrite wbind_lift. cbn beta iota.
  set (os := [0; _; 0] ++ _).
  assert (Hos : holds os fs) by (unfold holds, os; eauto).
  pose proof (check_size os fs Hos ltac:(lia) cols ls fs 0 eq_refl HC HF0) as Hcs. change (Z.of_nat 0) with 0 in Hcs.
  rewrite Hcs.
  rewrite wbind_lift. cbv iota. unfold parseRecords.
  assert (Hlr : len (skipn (Z.to_nat off) page) < 4294967295) by (rewrite len_skipn by lia; lia).
  pose proof (cut_fields rt (skipn (Z.to_nat off) page) os fs Hos ltac:(lia) Hlr cols ls fs 0 eq_refl HC HF0) as Hpf.
  change (Z.of_nat 0) with 0 in Hpf. change (len (body (firstn 0 fs))) with 0 in Hpf. rewrite Hpf.
  destruct (data_size os fs) as [v [w [E1 E2]]].
  { destruct fs; [cbn in Hlf; lia|discriminate]. }
  { unfold os. replace (len (t_columns table)) with (len fs) by (unfold len; lia). eauto. }
  rewrite wbind_assoc. apply wbind_ext. intro r.
  rewrite wbind_assoc, E1, wbind_lift, wbind_ret, E2, wbind_lift. reflexivity.
Qed.

(** the columns before the cut one are decoded as they are in a whole record;
    the cut one is left alone, and any column behind it is out of reach *)
Lemma cut_reached rt rec after : forall cols ls fs row, row_of rt after cols ls fs row ->
  forall p, 0 <= p -> p + len (body fs) <= len rec -> skipn (Z.to_nat p) rec = body fs ++ after ->
  forall cols2 ls2 fs2,
  cut_values rt rec p (cols ++ cols2) (ls ++ ls2) (fs ++ fs2)
  = (_ <-w (remarks cols fs, Ok tt) ;; r <-w cut_values rt rec (p + len (body fs)) cols2 ls2 fs2 ;; wret (row ++ r)).
Proof.
  induction 1 as [|c cs l ls fs r HR IH|c cs l ls f fs v bin r Hf HP HR IH]; intros p Hp Hle Hsk cols2 ls2 fs2.
  - cbn [app body flat_map]. change (len (@nil Z)) with 0. rewrite Z.add_0_r.
    cbn [remarks]. destruct (cut_values rt rec p cols2 ls2 fs2) as [o [a| |]]; cbn; rewrite ?app_nil_r; reflexivity.
  - cbn [remarks]. cbn [app cut_values body flat_map content] in *. change (len (@nil Z)) with 0 in *. rewrite Z.add_0_r in *. fold (body fs) in *.
    unfold cut_value. pose proof (len_nonneg (body fs)). replace (len rec <? p) with false by lia. rewrite wbind_ret.
    rewrite (IH p Hp Hle Hsk). destruct (cut_values rt rec _ cols2 ls2 fs2) as [o [a| |]]; cbn; rewrite ?app_nil_r; reflexivity.
  - cbn [app cut_values body flat_map] in *. fold (body fs) in *. rewrite len_app in *. rewrite <- app_assoc in Hsk.
    pose proof (len_nonneg (body fs)). pose proof (len_nonneg (content f)).
    assert (E : cut_value rt rec p c l f = (remark c, Ok (set_value c v bin))).
    { unfold cut_value. replace (len rec <? p) with false by lia. replace (len rec <? p + len (content f)) with false by lia.
      rewrite Hsk. change (zlen (content f)) with (len (content f)) in HP. destruct f; [contradiction| |]; rewrite HP; apply (wbind_pure (remark c) (v, bin) (fun x => set_value c (fst x) (snd x))). }
    rewrite E.
    rewrite (IH (p + len (content f)) ltac:(lia) ltac:(lia)).
    + replace (p + len (content f) + len (body fs)) with (p + (len (content f) + len (body fs))) by lia.
      replace (remarks (c :: cs) (f :: fs)) with (remark c ++ remarks cs fs) by (destruct f; [contradiction| |]; reflexivity).
      destruct (cut_values rt rec _ cols2 ls2 fs2) as [o [a| |]]; cbn; rewrite ?app_nil_r, ?app_assoc; reflexivity.
    + replace (Z.to_nat (p + len (content f))) with (Z.to_nat p + List.length (content f))%nat by (unfold len; lia).
      rewrite <- skipn_skipn, Hsk. apply skipn_app_exact. reflexivity.
Qed.
Lemma cut_here rt rec p c l f cols ls fs : p <= len rec < p + len (content f) -> List.length cols = List.length fs -> List.length ls = List.length fs ->
  cut_values rt rec p (c :: cols) (l :: ls) (f :: fs) = match fs with [] => ([], Ok [c]) | _ => ([], Panic) end.
Proof.
  intros H Hc Hl. cbn [cut_values]. assert (E : cut_value rt rec p c l f = wret c).
  { unfold cut_value. replace (len rec <? p) with false by lia. replace (len rec <? p + len (content f)) with true by lia.
    destruct f; try reflexivity. cbn [content] in H. change (len (@nil Z)) with 0 in H. lia. }
  rewrite E, wbind_ret. destruct fs as [|g fs]; destruct cols as [|c2 cols]; destruct ls as [|l2 ls]; try discriminate; [reflexivity|].
  cbn [cut_values]. unfold cut_value. replace (len rec <? p + len (content f)) with true by lia. reflexivity.
Qed.

(** one record whose column [f] is cut by the end of the page *)
Lemma record_cut_at rt tm page beyond off cols c cols2 ls l ls2 fs f fs2 row :
  compact_page page -> compact_at (page ++ beyond) off (ls ++ l :: ls2) (fs ++ f :: fs2) -> len (body (fs ++ f :: fs2)) < 65536 ->
  off + len (body fs) <= 16384 < off + len (body fs) + len (content f) ->
  Forall2 describes (cols ++ c :: cols2) (ls ++ l :: ls2) -> known tm (cols ++ c :: cols2) (ls ++ l :: ls2) ->
  (3 <= List.length (cols ++ c :: cols2))%nat ->
  row_of rt (skipn (Z.to_nat (off + len (body fs))) page) cols ls fs row ->
  parsePage_record rt tm page off (cols ++ c :: cols2)
  = (remarks cols fs, match fs2 with [] => Ok (Some (row ++ [c])) | _ => Panic end).
Proof.
  intros Hp Hat Hb Hcut HD [c0 [table [K1 [K2 [K3 K4]]]]] H3 HR. pose proof (len_nonneg (body fs)).
  rewrite (record_cut rt tm page beyond off (cols ++ c :: cols2) (ls ++ l :: ls2) (fs ++ f :: fs2) table c0) by (try assumption; lia).
  destruct (compact_skip _ _ _ _ Hat) as [post [Hsk [Ho0 _]]]. pose proof Hp as [[Hpl _] _]. change (zlen page) with (len page) in Hpl.
  pose proof Hat as (_ & _ & _ & _ & _ & _ & _ & HF).
  assert (Hlen : List.length cols = List.length ls /\ List.length ls = List.length fs).
  { clear - HR. induction HR; cbn; lia. }
  pose proof (forall2_length _ _ _ HF) as L1. pose proof (forall2_length _ _ _ HD) as L2. rewrite !app_length in L1, L2. cbn [List.length] in L1, L2.
  set (rec := skipn (Z.to_nat off) page).
  assert (Hrec : rec = body fs ++ skipn (Z.to_nat (off + len (body fs))) page).
  { replace (Z.to_nat (off + len (body fs))) with (Z.to_nat off + List.length (body fs))%nat by (unfold len; lia).
    rewrite <- skipn_skipn. fold rec.
    assert (E : rec ++ beyond = body fs ++ body (f :: fs2) ++ post).
    { unfold rec. rewrite skipn_app in Hsk. replace (Z.to_nat off - List.length page)%nat with 0%nat in Hsk by (unfold len in *; lia).
      cbn [skipn] in Hsk. rewrite Hsk. unfold body. rewrite flat_map_app, <- app_assoc. reflexivity. }
    apply (f_equal (firstn (List.length (body fs)))) in E.
    assert (Hlr : (List.length (body fs) <= List.length rec)%nat) by (unfold rec; rewrite skipn_length; unfold len in *; lia).
    rewrite firstn_app in E. replace (List.length (body fs) - List.length rec)%nat with 0%nat in E by lia.
    rewrite firstn_O, app_nil_r in E. rewrite firstn_app, Nat.sub_diag, firstn_O, app_nil_r, firstn_all in E.
    rewrite <- E at 1. symmetry. apply firstn_skipn. }
  assert (Hlr : len rec = 16384 - off) by (unfold rec; rewrite len_skipn by lia; lia).
  rewrite (cut_reached rt rec _ cols ls fs row HR 0); [|lia|lia|exact Hrec].
  rewrite Z.add_0_l, cut_here by lia. destruct fs2; cbn; rewrite ?app_nil_r; reflexivity.
Qed.

(** * The walk up to a given record *)
Lemma walk_to rt tm page compact fuel z : in_format compact page -> user_origin z -> forall offs o rows lines cols cols',
  chain compact page o offs z -> NoDup (o :: offs ++ [z]) -> Forall user_origin (o :: offs) ->
  decoded rt tm page cols (o :: offs) rows lines cols' ->
  parsePage_loop (List.length (o :: offs) + fuel) rt tm page (supremum compact) o cols
  = (_ <-w (lines, Ok tt) ;; '(rs, c) <-w parsePage_loop fuel rt tm page (supremum compact) z cols' ;; wret (rows ++ rs, c)).
Proof.
  intros Hf Hz. assert (Hsup : supremum compact < 120 /\ 0 < supremum compact) by (destruct compact; cbn; lia). unfold user_origin in Hz.
  induction offs as [|o2 offs IH]; intros o rows lines cols cols' Hc Hnd Hu Hd;
    inversion Hu as [|? ? Ho Hu']; subst; unfold user_origin in Ho;
    inversion Hd as [|? ? ? row rows2 out lines2 ? Hr Hd']; subst;
    inversion Hc as [? ? Hl|? ? ? ? Hl Hc']; subst;
    change (List.length (o :: ?t) + fuel)%nat with (S (List.length t + fuel));
    rewrite (step_loop _ rt tm page _ o cols out row) by (try assumption; lia);
    inversion Hnd as [|? ? Hni Hnd']; subst.
  - assert (z <> o) by (intros ->; apply Hni; now left).
    rewrite (next_linked compact page o z) by (try assumption; lia). rewrite wbind_lift. cbv iota.
    inversion Hd'; subst. rewrite app_nil_r. reflexivity.
  - inversion Hu' as [|? ? Ho2 _]; subst. unfold user_origin in Ho2.
    assert (o2 <> o) by (intros ->; apply Hni; now left).
    rewrite (next_linked compact page o o2) by (try assumption; lia). rewrite wbind_lift. cbv iota.
    rewrite (IH o2 rows2 lines2 row cols'); try assumption. destruct (parsePage_loop fuel rt tm page _ z cols') as [w [[rs c]| |]]; cbn; rewrite ?app_nil_r, ?app_assoc; reflexivity.
Qed.
Lemma page_to rt tm page compact offs z rows lines cols cols' fuel free : in_format compact page -> user_origin z ->
  chain compact page (infimum compact) offs z -> NoDup (offs ++ [z]) -> Forall user_origin offs ->
  decoded rt tm page cols offs rows lines cols' ->
  parsePage (List.length offs + fuel) rt tm page cols false free
  = (_ <-w (lines, Ok tt) ;; '(rs, c) <-w parsePage_loop fuel rt tm page (supremum compact) z cols' ;; wret (rows ++ rs, c)).
Proof.
  intros Hf Hz Hc Hnd Hu Hd. rewrite (parsePage_start _ rt tm page cols compact) by exact Hf. cbv iota.
  inversion Hc as [? ? Hl|? o offs2 ? Hl Hc']; subst.
  - unfold user_origin in Hz. rewrite (start_linked compact page z) by (try exact Hl; destruct compact; cbn; lia).
    inversion Hd; subst. cbn [List.length Nat.add]. destruct (parsePage_loop _ _ _ _ _ _ _) as [o [[a b]| |]]; cbn; rewrite ?app_nil_r; reflexivity.
  - inversion Hu as [|? ? Ho _]; subst. unfold user_origin in Ho.
    rewrite (start_linked compact page o) by (try exact Hl; destruct compact; cbn; lia).
    now apply (walk_to rt tm page compact fuel z Hf Hz offs2).
Qed.
Lemma decoded_last rt tm page : forall offs cols rows lines colsE, decoded rt tm page cols offs rows lines colsE -> offs <> [] ->
  exists before, rows = before ++ [colsE].
Proof.
  induction offs as [|o offs IH]; intros cols rows lines colsE Hd Hne; [contradiction|].
  inversion Hd as [|? ? ? row rows' out lines' ? Hr Hd']; subst. destruct offs as [|o2 offs].
  - inversion Hd'; subst. now exists [].
  - destruct (IH _ _ _ _ Hd' ltac:(discriminate)) as [before ->]. now exists (row :: before).
Qed.
Lemma moved_split cols c cols2 m : Forall2 moved (cols ++ c :: cols2) m ->
  exists cols' c' cols2', m = cols' ++ c' :: cols2' /\ Forall2 moved cols cols'.
Proof.
  intro H. apply Forall2_app_inv_l in H. destruct H as [m1 [m2 [H1 [H2 ->]]]]. inversion H2; subst. eauto 6.
Qed.
