(** Pages with a list of deleted records, and with marked records, for the
    examples: each page does hold the records it is built from. *)
From Coq Require Import ZifyBool.
From Verif Require Import GoBase Ibdata SpecInno SpecText SpecSql SpecRecord SpecRow SpecPage SpecDict SpecTool SpecHistory SpecLoad PBase PWire PRec PPage PFile PNode PBuild.
Local Open Scope list_scope.
Ltac Zify.zify_post_hook ::= Z.div_mod_to_equations.

Definition free_link (o : Z) (os : list Z) : Z := match os with [] => 0 | n :: _ => link true o n end.
Fixpoint free_blocks (a : Z) (rs : list rec) : list Z :=
  match rs with
  | [] => []
  | r :: rs' =>
    let o := a + zlen (low r) + 2 in let a' := o + zlen (high r) in
    low r ++ be 2 (free_link o (origins a' rs')) ++ high r ++ free_blocks a' rs'
  end.
Definition freed_front (number id first : Z) : list Z :=
  repeat 0 4 ++ be 4 number ++ repeat 0 16 ++ be 2 17855 ++ repeat 0 16 ++ [128; 0] ++ be 2 first ++ be 2 1 ++ repeat 0 18 ++ be 8 id ++ repeat 0 23 ++ be 2 13 ++ repeat 0 26.
Definition freed (number id : Z) (rs : list rec) : list Z :=
  freed_front number id (hd 0 (origins 125 rs)) ++ free_blocks 125 rs ++ repeat 0 (Z.to_nat (16384 - 125 - zlen (free_blocks 125 rs))).
Lemma free_blocks_length rs : forall a, zlen (free_blocks a rs) = zlen (blocks true a rs).
Proof. induction rs as [|r rs IH]; intros a; cbn [free_blocks blocks]; [reflexivity|]. change (@zlen) with (@len) in *. rewrite !len_app, !len_be. now rewrite IH. Qed.
Lemma free_blocks_bytes rs : Forall fine rs -> forall a, Forall (fun b => 0 <= b < 256) (free_blocks a rs).
Proof. induction 1 as [|r rs [H1 H2] _ IH]; intro a; cbn [free_blocks]; [constructor|]. apply Forall_app; split; [exact H1|]. apply Forall_app; split; [apply be_bytes|]. apply Forall_app; split; [exact H2|apply IH]. Qed.
Lemma free_blocks_chain post rs : forall pre page, page = pre ++ free_blocks (zlen pre) rs ++ post -> zlen page = 16384 -> rs <> [] ->
  free_chain true page (origins (zlen pre) rs)
  /\ Forall2 (fun o r => exists pre' l post', page = pre' ++ low r ++ be 2 l ++ high r ++ post' /\ o = zlen pre' + zlen (low r) + 2
       /\ zlen pre <= zlen pre' /\ zlen post <= zlen post') (origins (zlen pre) rs) rs.
Proof.
  change (@zlen) with (@len). induction rs as [|r rs IH]; intros pre page Hp Hl Hne; [contradiction|].
  cbn [origins free_blocks] in *. change (@zlen) with (@len) in *. set (o := len pre + len (low r) + 2) in *. set (a' := o + len (high r)) in *.
  set (lk := free_link o (origins a' rs)) in *. set (pre2 := pre ++ low r ++ be 2 lk ++ high r).
  assert (Ea : a' = len pre2) by (unfold a', o, pre2; rewrite !len_app, len_be; lia).
  assert (Hp2 : page = pre2 ++ free_blocks (len pre2) rs ++ post) by (rewrite <- Ea, Hp; unfold pre2; now rewrite <- !app_assoc).
  assert (Hb : Forall (fun x => a' < x < 65536) (origins a' rs)).
  { rewrite Ea. pose proof (origins_bound rs (len pre2) (len_nonneg pre2)) as H. pose proof (free_blocks_length rs (len pre2)) as L. change (@zlen) with (@len) in *.
    rewrite Hp2, (len_app pre2), len_app in Hl. pose proof (len_nonneg post). revert H. apply Forall_impl. intros x [X1 X2]. lia. }
  assert (Hlk : 0 <= lk < 256 ^ Z.of_nat 2).
  { unfold lk, free_link. destruct (origins a' rs) as [|n os]; [change (256 ^ Z.of_nat 2) with 65536; lia|]. apply Forall_inv in Hb. pose proof (len_nonneg pre2). apply (link_range true). lia. }
  assert (HF : field page (o - 2) 2 = lk).
  { replace (o - 2) with (zlen (pre ++ low r)) by (change (@zlen) with (@len); rewrite len_app; unfold o; lia). rewrite Hp, <- !app_assoc, (app_assoc pre). now rewrite field_there. }
  assert (Hle : len pre <= a') by (unfold a', o; pose proof (len_nonneg (low r)); pose proof (len_nonneg (high r)); lia).
  assert (Hoa : o <= a') by (unfold a'; pose proof (len_nonneg (high r)); lia).
  assert (Here : exists pre' l post', page = pre' ++ low r ++ be 2 l ++ high r ++ post' /\ o = len pre' + len (low r) + 2 /\ len pre <= len pre' /\ len post <= len post').
  { exists pre, lk, (free_blocks a' rs ++ post). split; [rewrite Hp; now rewrite <- !app_assoc|]. split; [reflexivity|]. split; [lia|]. rewrite len_app. pose proof (len_nonneg (free_blocks a' rs)). lia. }
  destruct rs as [|r2 rs].
  - cbn [origins]. split; [|constructor; [exact Here|constructor]]. constructor. exact HF.
  - destruct (IH pre2 page Hp2 Hl ltac:(discriminate)) as [C1 C2]. rewrite <- Ea in C1, C2. split.
    + assert (Ho : 0 <= o) by (unfold o; pose proof (len_nonneg pre); pose proof (len_nonneg (low r)); lia).
      cbn [origins] in *. apply Forall_inv in Hb. apply free_step; [rewrite HF|unfold linked; rewrite HF; reflexivity|exact C1].
      unfold lk, free_link, link. revert Hb. generalize (a' + zlen (low r2) + 2). intros n Hb. rewrite Z.mod_small; lia.
    + constructor; [exact Here|]. clearbody a'. clear - C2 Hle. revert C2. apply forall2_impl. intros x r0 [p1 [l [q1 [H1 [H2 [H3 H4]]]]]]. exists p1, l, q1. split; [exact H1|]. split; [exact H2|]. split; [lia|exact H4].
Qed.
Lemma freed_page number id rs : Forall fine rs -> zlen (free_blocks 125 rs) <= 16000 -> rs <> [] -> 0 <= number < 2 ^ 32 -> 0 <= id < 2 ^ 64 ->
  let page := freed number id rs in
  in_format true page /\ page_number page = number /\ eligible true page = true
  /\ free_chain true page (origins 125 rs) /\ hd_error (origins 125 rs) = Some (field page 44 2)
  /\ Forall2 (fun o r => exists pre l post, page = pre ++ low r ++ be 2 l ++ high r ++ post /\ o = zlen pre + zlen (low r) + 2 /\ 125 <= zlen pre /\ 200 <= zlen post) (origins 125 rs) rs.
Proof.
  intros Hf Hl Hne Hn Hi page. set (first := hd 0 (origins 125 rs)).
  set (tail := free_blocks 125 rs ++ repeat 0 (Z.to_nat (16384 - 125 - zlen (free_blocks 125 rs)))).
  assert (EP : page = freed_front number id first ++ tail) by reflexivity.
  assert (FL : zlen (freed_front number id first) = 125) by reflexivity.
  assert (HL : zlen page = 16384).
  { rewrite EP. unfold tail. change (@zlen) with (@len) in *. rewrite !len_app, FL. unfold len at 2. rewrite repeat_length. lia. }
  assert (Himg : page_image page).
  { split; [exact HL|]. rewrite EP. unfold freed_front, tail. repeat first [apply zeros | apply be_bytes | apply free_blocks_bytes; exact Hf | apply Forall_app; split | constructor; [lia|constructor; [lia|constructor]]]. }
  assert (Hfirst : 125 < first < 16384).
  { pose proof (origins_bound rs 125 ltac:(lia)) as H. rewrite free_blocks_length in Hl. unfold first. destruct rs as [|r rs]; [contradiction|]. apply Forall_inv in H. cbn [origins hd] in *. lia. }
  assert (Q : field page 44 2 = first).
  { set (f := repeat 0 4 ++ be 4 number ++ repeat 0 16 ++ be 2 17855 ++ repeat 0 16 ++ [128; 0]). change 44 with (zlen f).
    replace page with (f ++ be 2 first ++ (be 2 1 ++ repeat 0 18 ++ be 8 id ++ repeat 0 23 ++ be 2 13 ++ repeat 0 26 ++ tail)) by (rewrite EP; unfold freed_front, f; now rewrite <- !app_assoc).
    apply field_there. change (256 ^ Z.of_nat 2) with 65536. lia. }
  assert (G : field page 46 2 = 1).
  { set (f := repeat 0 4 ++ be 4 number ++ repeat 0 16 ++ be 2 17855 ++ repeat 0 16 ++ [128; 0] ++ be 2 first). change 46 with (zlen f).
    replace page with (f ++ be 2 1 ++ (repeat 0 18 ++ be 8 id ++ repeat 0 23 ++ be 2 13 ++ repeat 0 26 ++ tail)) by (rewrite EP; unfold freed_front, f; now rewrite <- !app_assoc).
    apply field_there. change (256 ^ Z.of_nat 2) with 65536. lia. }
  split; [split; [exact Himg|]; rewrite EP; cbn; lia|]. split; [|split; [|split; [|split]]].
  - unfold page_number. change 4 with (zlen (repeat 0 4)). rewrite EP. unfold freed_front. rewrite <- !app_assoc. apply field_there. exact Hn.
  - unfold eligible. rewrite Q, G. replace (field page 24 2) with 17855; [replace (field page 64 2) with 0; [replace (field page 56 8) with 0; [lia|]|]|]; symmetry.
    + set (f := repeat 0 4 ++ be 4 number ++ repeat 0 16 ++ be 2 17855 ++ repeat 0 16 ++ [128; 0] ++ be 2 first ++ be 2 1 ++ repeat 0 8). change 56 with (zlen f).
      replace page with (f ++ be 8 0 ++ (repeat 0 2 ++ be 8 id ++ repeat 0 23 ++ be 2 13 ++ repeat 0 26 ++ tail)) by (rewrite EP; unfold freed_front, f; rewrite <- !app_assoc; reflexivity).
      apply field_there. lia.
    + set (f := repeat 0 4 ++ be 4 number ++ repeat 0 16 ++ be 2 17855 ++ repeat 0 16 ++ [128; 0] ++ be 2 first ++ be 2 1 ++ repeat 0 16). change 64 with (zlen f).
      replace page with (f ++ be 2 0 ++ (be 8 id ++ repeat 0 23 ++ be 2 13 ++ repeat 0 26 ++ tail)) by (rewrite EP; unfold freed_front, f; rewrite <- !app_assoc; reflexivity).
      apply field_there. lia.
    + set (f := repeat 0 4 ++ be 4 number ++ repeat 0 16). change 24 with (zlen f).
      replace page with (f ++ be 2 17855 ++ (repeat 0 16 ++ [128; 0] ++ be 2 first ++ be 2 1 ++ repeat 0 18 ++ be 8 id ++ repeat 0 23 ++ be 2 13 ++ repeat 0 26 ++ tail)) by (rewrite EP; unfold freed_front, f; now rewrite <- !app_assoc).
      apply field_there. change (256 ^ Z.of_nat 2) with 65536. lia.
  - apply (free_blocks_chain (repeat 0 (Z.to_nat (16384 - 125 - zlen (free_blocks 125 rs)))) rs (freed_front number id first) page); [rewrite FL; exact EP|exact HL|exact Hne].
  - rewrite Q. unfold first. destruct rs as [|r rs]; [contradiction|]. reflexivity.
  - destruct (free_blocks_chain (repeat 0 (Z.to_nat (16384 - 125 - zlen (free_blocks 125 rs)))) rs (freed_front number id first) page) as [_ C2]; [rewrite FL; exact EP|exact HL|exact Hne|].
    rewrite FL in C2. clear - C2 Hl. revert C2. apply forall2_impl. intros o r [p1 [l [q [H1 [H2 [H3 H4]]]]]]. exists p1, l, q. split; [exact H1|]. split; [exact H2|]. split; [exact H3|].
    unfold zlen at 1 in H4. rewrite repeat_length in H4. unfold zlen in *. lia.
Qed.
(** COMPACT records with given info bits *)
Definition irec (info : Z) (ls : list layout) (fs : list stored) : rec :=
  mkRec (rev (lengths ls fs) ++ be (Z.to_nat ((nullable_count ls + 7) / 8)) (flags_number (null_flags ls fs)) ++ [info; 0; 0]) (body fs).
Lemma irec_there info ss page fs pre l post o vs rt : let ls := map slot_layout ss in
  page = pre ++ low (irec info ls fs) ++ be 2 l ++ high (irec info ls fs) ++ post -> o = zlen pre + zlen (low (irec info ls fs)) + 2 -> zlen page = 16384 -> 125 <= zlen pre -> 200 <= zlen post ->
  0 <= info < 256 -> Forall2 fits ls fs -> row_encodes rt ss vs fs ->
  user_origin o /\ marked true page o = Z.testbit info 5 /\ exists fs, stored_at true page o ls fs /\ o + zlen (body fs) <= 16384 - 8 /\ row_encodes rt ss vs fs.
Proof.
  intros ls E1 E2 PL E3 E4 Hinfo Hfit Hre.
  assert (EL : zlen page = zlen pre + zlen (low (irec info ls fs)) + 2 + zlen (high (irec info ls fs)) + zlen post) by (rewrite E1; change (@zlen) with (@len); rewrite !len_app, len_be; lia).
  rewrite PL in EL. split; [unfold user_origin; unfold zlen in *; lia|]. split.
  - unfold marked. cbn [irec low high] in *. set (x := pre ++ rev (lengths ls fs) ++ be (Z.to_nat ((nullable_count ls + 7) / 8)) (flags_number (null_flags ls fs))).
    assert (Ep : page = x ++ be 1 info ++ ([0; 0] ++ be 2 l ++ body fs ++ post)).
    { rewrite E1. unfold x. rewrite <- !app_assoc. do 3 f_equal. replace (be 1 info) with [info]; [reflexivity|]. unfold be. cbn. f_equal. lia. }
    replace (o - 5) with (zlen x) by (rewrite E2; unfold x; change (@zlen) with (@len); rewrite !len_app; change (len [info; 0; 0]) with 3; lia).
    rewrite Ep, field_there by (change (256 ^ Z.of_nat 1) with 256; lia). reflexivity.
  - exists fs. split; [|split; [cbn [irec high] in EL; lia|exact Hre]].
    cbn [irec low high] in *. exists pre, ([info; 0; 0] ++ be 2 l), post. split; [rewrite E1; now rewrite <- !app_assoc|]. split; [lia|].
    rewrite E2. change (@zlen) with (@len) in *. rewrite !len_app, len_rev, !len_be. change (len [info; 0; 0]) with 3. split; [lia|]. split; [|exact Hfit].
    pose proof (nullable_nonneg ls). rewrite Z2Nat.id by (apply Z.div_pos; lia). fold ls. lia.
Qed.
Lemma freed_holds rt ss number id fss rows : Forall2 (fun fs vs => Forall2 fits (map slot_layout ss) fs /\ row_encodes rt ss vs fs) fss rows -> fss <> [] ->
  Forall fine (map (irec 32 (map slot_layout ss)) fss) -> zlen (free_blocks 125 (map (irec 32 (map slot_layout ss)) fss)) <= 16000 -> 0 <= number < 2 ^ 32 -> 0 <= id < 2 ^ 64 ->
  page_holds rt true ss (freed number id (map (irec 32 (map slot_layout ss)) fss)) rows.
Proof.
  intros HR Hne Hf Hl H1 H2. destruct (freed_page number id (map (irec 32 (map slot_layout ss)) fss)) as [P1 [_ [_ [P2 [P3 P4]]]]]; try assumption; [destruct fss; [contradiction|discriminate]|].
  exists true, (origins 125 (map (irec 32 (map slot_layout ss)) fss)). split; [exact P1|]. split; [split; [exact P2|exact P3]|]. destruct P1 as [[PL _] _]. clear Hl P2 P3 Hne Hf. revert PL P4.
  generalize (freed number id (map (irec 32 (map slot_layout ss)) fss)) as page. generalize (origins 125 (map (irec 32 (map slot_layout ss)) fss)) as os.
  intros os page PL P3. revert os P3. induction HR as [|fs vs fss rows [Hfit Hre] _ IH]; intros os P3; inversion P3 as [|o ? os' ? HX P3']; subst; constructor; [|now apply IH]. destruct HX as [pre [l [post [E1 [E2 [E3 E4]]]]]].
  destruct (irec_there 32 ss page fs pre l post o vs rt E1 E2 PL E3 E4 ltac:(lia) Hfit Hre) as [Q1 [_ Q2]]. split; [exact Q1|exact Q2].
Qed.
Lemma marks_built rt ss number id its items : Forall2 (fun it x => Forall2 fits (map slot_layout ss) (snd it) /\ row_encodes rt ss (values (users ss) (fst x)) (snd it) /\ snd x = fst it) its items ->
  let rs := map (fun it : bool * list stored => irec (if fst it then 32 else 0) (map slot_layout ss) (snd it)) its in
  Forall fine rs -> zlen (blocks true 125 rs) <= 16000 -> 0 <= number < 2 ^ 32 -> 0 <= id < 2 ^ 64 -> page_marks rt ss (built true number 17855 id rs) items.
Proof.
  intros HR rs Hf Hl H1 H2. destruct (built_page true number 17855 id rs) as [P1 [_ [_ [_ [_ [_ [P2 P3]]]]]]]; try assumption; try lia.
  exists true, (origins 125 rs). split; [exact P1|]. split; [exact P2|]. destruct P1 as [[PL _] _]. clear Hl P2 Hf. revert PL P3. generalize (built true number 17855 id rs) as page. generalize (origins 125 rs) as os. unfold rs. clear rs.
  intros os page PL P3. revert os P3. induction HR as [|[m fs] [vs m'] fss rows [Hfit [Hre Hm]] _ IH]; intros os P3; inversion P3 as [|o ? os' ? HX P3']; subst; constructor; [|now apply IH]. destruct HX as [pre [l [post [E1 [E2 [E3 E4]]]]]].
  cbn [fst snd] in *. subst m'. destruct (irec_there (if m then 32 else 0) ss page fs pre l post o (values (users ss) vs) rt E1 E2 PL E3 E4 ltac:(destruct m; lia) Hfit Hre) as [Q1 [Q2 Q3]].
  split; [exact Q1|]. split; [rewrite Q2; now destruct m|exact Q3].
Qed.
