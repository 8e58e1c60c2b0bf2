(** C108: the size of a record.  The reader adds up the sizes of the records of
    a page (parse.go:895, utils.go:127); the sum is not used for anything
    else. *)
From Coq Require Import ZifyBool.
From Verif Require Import GoBase Utils Ibdata SpecInno SpecText SpecSql SpecRecord SpecRow PBase PWire PRec PropRec.
Local Open Scope list_scope.

Lemma sizes os fs f n x z : os = [0; n; x] ++ entries 0 (fs ++ [f]) ++ z -> n = len (fs ++ [f]) -> 0 <= x < 2 ^ 30 -> len (body (fs ++ [f])) < 2 ^ 30 ->
  RecOffsDataSize os = Ok (entry (len (body fs)) f) /\ RecOffsExtraSize os = Ok x /\ RecOffsSize os = Ok (entry (len (body fs)) f + x).
Proof.
  intros -> Hn Hx Hb.
  assert (E1 : RecOffsDataSize ([0; n; x] ++ entries 0 (fs ++ [f]) ++ z) = Ok (entry (len (body fs)) f)).
  { unfold RecOffsDataSize, RecOffNFields. change ([0; n; x] ++ entries 0 (fs ++ [f]) ++ z) with ([0; n] ++ (x :: entries 0 (fs ++ [f]) ++ z)).
    change 2 with (len [0; n]) at 1. rewrite slice_from_app. cbn [bind].
    change ([0; n] ++ (x :: entries 0 (fs ++ [f]) ++ z)) with (0 :: n :: x :: entries 0 (fs ++ [f]) ++ z). rewrite index_1. cbn [bind].
    rewrite Hn, len_app. change (len [f]) with 1. replace (x :: entries 0 (fs ++ [f]) ++ z) with ([x] ++ entries 0 (fs ++ [f]) ++ z) by reflexivity.
    replace (len fs + 1) with (len [x] + Z.of_nat (List.length fs)) by (unfold len; cbn [List.length]; lia). apply index_from_app.
    rewrite (entries_nth (fs ++ [f]) 0 (List.length fs) f) by (rewrite nth_error_app2, Nat.sub_diag by lia; reflexivity).
    rewrite firstn_app, Nat.sub_diag, firstn_all. cbn [firstn]. now rewrite app_nil_r, Z.add_0_l. }
  assert (E2 : RecOffsExtraSize ([0; n; x] ++ entries 0 (fs ++ [f]) ++ z) = Ok x).
  { unfold RecOffsExtraSize. change ([0; n; x] ++ entries 0 (fs ++ [f]) ++ z) with ([0; n] ++ (x :: entries 0 (fs ++ [f]) ++ z)).
    change 2 with (len [0; n]) at 1. rewrite slice_from_app. cbn [bind]. rewrite index_0. cbn [bind]. f_equal.
    apply Z.bits_inj'. intros i Hi. rewrite Z.ldiff_spec, Z.lor_spec, !Z.pow2_bits_eqb by lia.
    destruct (Z.eqb_spec 31 i) as [<-|N1]; [rewrite testbit_div by lia; now rewrite (Z.div_small x) by lia|]. destruct (Z.eqb_spec 30 i) as [<-|N2]; [rewrite testbit_div by lia; now rewrite (Z.div_small x) by lia|]. cbn. now rewrite andb_true_r. }
  split; [exact E1|]. split; [exact E2|]. unfold RecOffsSize. rewrite E1, E2. cbn [bind]. f_equal. apply u64_id.
  unfold body in Hb. rewrite flat_map_app, len_app in Hb. cbn [flat_map] in Hb. rewrite app_nil_r in Hb. fold (body fs) in Hb. pose proof (len_nonneg (body fs)). pose proof (len_nonneg (content f)).
  destruct (entry_mod (len (body fs)) f ltac:(lia) ltac:(lia)) as [t [Ht [-> _]]]. lia.
Qed.

(** The size of a REDUNDANT record is the number of bytes it takes... *)
Theorem C108_redundant_partial : forall page off wide fs, redundant_page page -> redundant_at page off wide fs -> (3 <= List.length fs)%nat ->
  exists os, ibRecInitOffsetsOld page off (zeros (List.length fs * 2)) (List.length fs) = Ok os /\ RecOffsSize os = Ok (redundant_size wide fs).
Proof.
  intros page off wide fs [[Hl Hb] _] Hat Hn. change (@zlen) with (@len) in *. rewrite (offsets_old_exact page off wide fs Hb Hat Hn) by lia. eexists. split; [reflexivity|].
  destruct (redundant_skip page off wide fs Hat) as [post [_ [H0 [Hle _]]]].
  assert (Hf : len fs <= off) by (destruct Hat as (pre & header & post' & _ & _ & _ & -> & _); change (@zlen) with (@len); pose proof (len_nonneg pre);
    destruct wide; [rewrite flat_be2_len, len_rev|rewrite len_rev]; unfold len in *; rewrite ends_length; lia).
  destruct (exists_last (l := fs)) as [fs' [f ->]]; [intros ->; cbn in Hn; lia|]. rewrite map_app. cbn [map].
  pose proof (len_nonneg (rbody (fs' ++ [f]))) as Hr.
  assert (Eb : len (body (map plain fs' ++ [plain f])) = len (rbody (fs' ++ [f]))) by (rewrite <- body_plain, map_app; reflexivity).
  match goal with |- RecOffsSize (?a ++ ?b ++ ?z) = _ => pose proof (sizes (a ++ b ++ z) (map plain fs') (plain f) (len (fs' ++ [f])) (6 + (if wide then 2 else 1) * len (fs' ++ [f])) z eq_refl) as S end.
  destruct S as [_ [_ E]].
  - rewrite !len_app. unfold len. now rewrite map_length.
  - pose proof (len_nonneg (fs' ++ [f])). destruct wide; lia.
  - rewrite Eb. lia.
  - rewrite E. f_equal. unfold redundant_size. change (@zlen) with (@len). rewrite <- Eb. unfold body at 2. rewrite flat_map_app, (len_app (flat_map content (map plain fs'))). cbn [flat_map]. rewrite app_nil_r. fold (body (map plain fs')).
    destruct f; cbn [plain entry content]; destruct wide; lia.
Qed.
Print Assumptions C108_redundant_partial.
(** ... that of a COMPACT record never is: what is below the origin is not
    counted, and flags of the last column are. *)
Theorem C108_compact_refuted : forall page off ls fs f table, compact_page page -> compact_at page off ls (fs ++ [f]) ->
  Forall2 describes (t_columns table) ls -> t_nullcount table = nullable_count ls -> (3 <= List.length ls)%nat ->
  exists os, ibRecInitOffsetsNew page off (zeros (List.length ls * 2)) table = Ok os
    /\ RecOffsSize os = Ok (zlen (body (fs ++ [f])) + match f with FNull => 2 ^ 31 | FBytes _ => 0 | FExtern _ => 2 ^ 30 end)
    /\ RecOffsSize os <> Ok (compact_size ls (fs ++ [f])).
Proof.
  intros page off ls fs f table [[Hl Hb] _] Hat HC Hnc Hn. change (@zlen) with (@len) in *.
  destruct (compact_skip page off ls (fs ++ [f]) Hat) as [post [_ [H0 [Hle _]]]].
  assert (Hz : off >= len (lengths ls (fs ++ [f])) + (nullable_count ls + 7) / 8 + 5) by (destruct Hat as (pre & header & post' & _ & Hp & _ & -> & _); change (@zlen) with (@len) in *; lia).
  assert (HF : len (fs ++ [f]) = len ls) by (destruct Hat as (_ & _ & _ & _ & _ & _ & _ & HF); unfold len; now rewrite (forall2_length _ _ _ HF)).
  pose proof (len_nonneg (body (fs ++ [f]))) as Hr. pose proof (len_nonneg (lengths ls (fs ++ [f]))) as Hg. pose proof (nullable_nonneg ls) as Hv.
  rewrite <- (forall2_length _ _ _ HC). rewrite (offsets_new page off table (t_columns table) ls (fs ++ [f]) Hb Hat HC eq_refl Hnc) by (rewrite ?(forall2_length _ _ _ HC); lia || assumption).
  eexists. split; [reflexivity|].
  match goal with |- RecOffsSize (?a ++ ?b ++ ?z) = _ /\ _ => pose proof (sizes (a ++ b ++ z) fs f (len (t_columns table)) 0 z eq_refl) as S end.
  destruct S as [_ [_ E]]; [rewrite HF; unfold len; now rewrite (forall2_length _ _ _ HC)|lia|lia|].
  rewrite E, Z.add_0_r. assert (EE : entry (len (body fs)) f = len (body (fs ++ [f])) + match f with FNull => 2 ^ 31 | FBytes _ => 0 | FExtern _ => 2 ^ 30 end).
  { unfold body in *. rewrite flat_map_app, len_app in *. cbn [flat_map] in *. rewrite app_nil_r in *. pose proof (len_nonneg (flat_map content fs)).
    destruct f; cbn [entry content] in *; [change (len (@nil Z)) with 0 in *; rewrite lor31|pose proof (len_nonneg b)|pose proof (len_nonneg b); rewrite lor30]; lia. }
  rewrite EE. split; [reflexivity|]. intro X. injection X as X. unfold compact_size in X. change (@zlen) with (@len) in X. destruct f; lia.
Qed.
Print Assumptions C108_compact_refuted.
(** The records of C34 and C38, with their sizes. *)
Example C108_case : compact_size dlays drow = 328 /\ (exists fs, drow = fs ++ [FNull]) /\ zlen (body drow) = 319
  /\ redundant_size false (map RBytes [[128; 0; 0; 5]; repeat 1 6; repeat 2 7; txt "hello"; []]) = 33.
Proof. split; [|split; [|split]]; try (vm_compute; reflexivity). exists (removelast drow). reflexivity. Qed.
