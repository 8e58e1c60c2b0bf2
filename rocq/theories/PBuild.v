(** Pages built from given records, for the examples: each page does hold the
    records it is built from. *)
From Coq Require Import ZifyBool.
From Verif Require Import GoBase Ibdata SpecInno SpecText SpecSql SpecRecord SpecRow SpecPage SpecDict SpecTool PBase PWire PRec PPage PFile PNode.
Local Open Scope list_scope.
Ltac Zify.zify_post_hook ::= Z.div_mod_to_equations.

(** A record: what is below its link, and what is above (from the origin). *)
Record rec : Type := mkRec { low : list Z; high : list Z }.
Fixpoint origins (a : Z) (rs : list rec) : list Z :=
  match rs with
  | [] => []
  | r :: rs' => (a + zlen (low r) + 2) :: origins (a + zlen (low r) + 2 + zlen (high r)) rs'
  end.
Definition link (compact : bool) (o n : Z) : Z := if compact then (n - o) mod 65536 else n.
Fixpoint blocks (compact : bool) (a : Z) (rs : list rec) : list Z :=
  match rs with
  | [] => []
  | r :: rs' =>
    let o := a + zlen (low r) + 2 in let a' := o + zlen (high r) in
    low r ++ be 2 (link compact o (hd (supremum compact) (origins a' rs'))) ++ high r ++ blocks compact a' rs'
  end.
Definition page_front (compact : bool) (number next kind id first : Z) : list Z :=
  repeat 0 4 ++ be 4 number ++ repeat 0 4 ++ be 4 next ++ repeat 0 8 ++ be 2 kind ++ repeat 0 16 ++ [if compact then 128 else 0] ++ repeat 0 23 ++ be 8 id
  ++ (if compact then repeat 0 23 ++ be 2 (link true 99 first) ++ repeat 0 26 else repeat 0 25 ++ be 2 first ++ repeat 0 24).
Definition built_to (compact : bool) (number next kind id : Z) (rs : list rec) : list Z :=
  page_front compact number next kind id (hd (supremum compact) (origins 125 rs)) ++ blocks compact 125 rs
  ++ repeat 0 (Z.to_nat (16384 - 125 - zlen (blocks compact 125 rs))).
Definition built (compact : bool) (number kind id : Z) (rs : list rec) : list Z := built_to compact number 0 kind id rs.

Lemma front_length compact number next kind id first : zlen (page_front compact number next kind id first) = 125.
Proof. destruct compact; reflexivity. Qed.
Lemma field_there a k n b : 0 <= n < 256 ^ Z.of_nat k -> field (a ++ be k n ++ b) (zlen a) k = n.
Proof.
  intro Hn. unfold field. replace (Z.to_nat (zlen a)) with (List.length a) by (unfold zlen; lia). rewrite skipn_app, skipn_all, Nat.sub_diag. cbn [skipn app].
  rewrite firstn_app, be_length, Nat.sub_diag, firstn_all2 by (rewrite be_length; lia). cbn [firstn]. rewrite app_nil_r, be_val_be. now apply Z.mod_small.
Qed.
Lemma link_range compact o n : 0 <= n < 65536 -> 0 <= link compact o n < 256 ^ Z.of_nat 2.
Proof. intro H. change (256 ^ Z.of_nat 2) with 65536. unfold link. destruct compact; lia. Qed.
Lemma origins_bound rs : forall a, 0 <= a -> Forall (fun o => a < o /\ o <= a + zlen (blocks true a rs)) (origins a rs).
Proof.
  induction rs as [|r rs IH]; intros a Ha; cbn [origins blocks]; constructor.
  - change (@zlen) with (@len). rewrite !len_app, len_be. pose proof (len_nonneg (low r)). pose proof (len_nonneg (high r)). set (x := blocks _ _ _). pose proof (len_nonneg x). lia.
  - change (@zlen) with (@len) in *. pose proof (len_nonneg (low r)). pose proof (len_nonneg (high r)).
    specialize (IH (a + len (low r) + 2 + len (high r)) ltac:(lia)). apply Forall_forall. intros o Ho. rewrite Forall_forall in IH. specialize (IH o Ho).
    rewrite !len_app, len_be. lia.
Qed.
Lemma blocks_length compact rs : forall a, zlen (blocks compact a rs) = zlen (blocks true a rs).
Proof.
  induction rs as [|r rs IH]; intros a; cbn [blocks]; [reflexivity|]. change (@zlen) with (@len) in *. rewrite !len_app, !len_be. now rewrite IH.
Qed.
Lemma first_bound compact a rs : 0 <= a -> a + zlen (blocks compact a rs) <= 16384 -> 0 <= hd (supremum compact) (origins a rs) < 65536.
Proof.
  intros Ha Hb. pose proof (origins_bound rs a Ha) as Ho. rewrite blocks_length in Hb. destruct (origins a rs) as [|o os]; [destruct compact; cbn; lia|].
  inversion Ho; subst. cbn [hd]. lia.
Qed.
Lemma blocks_chain compact post rs : forall pre page p, page = pre ++ blocks compact (zlen pre) rs ++ post -> zlen page = 16384 ->
  linked compact page p (hd (supremum compact) (origins (zlen pre) rs)) ->
  chain compact page p (origins (zlen pre) rs) (supremum compact)
  /\ Forall2 (fun o r => exists pre' l post', page = pre' ++ low r ++ be 2 l ++ high r ++ post' /\ o = zlen pre' + zlen (low r) + 2
       /\ zlen pre <= zlen pre' /\ zlen post <= zlen post') (origins (zlen pre) rs) rs.
Proof.
  change (@zlen) with (@len). induction rs as [|r rs IH]; intros pre page p Hp Hl Hlk.
  - cbn [origins] in *. split; [now constructor|constructor].
  - cbn [origins blocks hd] in *. change (@zlen) with (@len) in *. set (o := len pre + len (low r) + 2) in *. set (a' := o + len (high r)) in *.
    set (nx := hd (supremum compact) (origins a' rs)) in *.
    set (pre2 := pre ++ low r ++ be 2 (link compact o nx) ++ high r).
    assert (Ea : a' = len pre2) by (unfold a', o, pre2; rewrite !len_app, len_be; lia).
    assert (Hp2 : page = pre2 ++ blocks compact (len pre2) rs ++ post) by (rewrite <- Ea, Hp; unfold pre2; now rewrite <- !app_assoc).
    assert (Hnx : 0 <= nx < 65536).
    { unfold nx. rewrite Ea. apply first_bound; [apply len_nonneg|]. change (@zlen) with (@len). rewrite Hp2, (len_app pre2), len_app in Hl. pose proof (len_nonneg post). lia. }
    assert (Hlk2 : linked compact page o (hd (supremum compact) (origins (len pre2) rs))).
    { rewrite <- Ea. fold nx. unfold linked. replace (o - 2) with (zlen (pre ++ low r)) by (change (@zlen) with (@len); rewrite len_app; unfold o; lia).
      rewrite Hp, <- !app_assoc, (app_assoc pre). rewrite field_there by now apply link_range. reflexivity. }
    destruct (IH pre2 page o Hp2 Hl Hlk2) as [C1 C2]. rewrite <- Ea in C1, C2. split.
    + apply chain_step; assumption.
    + constructor.
      * exists pre, (link compact o nx), (blocks compact a' rs ++ post). split; [rewrite Hp; now rewrite <- !app_assoc|]. split; [reflexivity|]. split; [lia|].
        rewrite len_app. pose proof (len_nonneg (blocks compact a' rs)). lia.
      * assert (Hle : len pre <= a') by (unfold a', o; pose proof (len_nonneg (low r)); pose proof (len_nonneg (high r)); lia).
        clearbody a'. clear - C2 Hle. revert C2. apply forall2_impl. intros x r0 [p1 [l [q1 [H1 [H2 [H3 H4]]]]]].
        exists p1, l, q1. split; [exact H1|]. split; [exact H2|]. split; [lia|exact H4].
Qed.
Definition fine (r : rec) : Prop := Forall (fun b => 0 <= b < 256) (low r) /\ Forall (fun b => 0 <= b < 256) (high r).
Lemma zeros n : Forall (fun b => 0 <= b < 256) (repeat 0 n).
Proof. apply Forall_forall. intros x Hx. apply repeat_spec in Hx. lia. Qed.
Lemma blocks_bytes compact rs : Forall fine rs -> forall a, Forall (fun b => 0 <= b < 256) (blocks compact a rs).
Proof. induction 1 as [|r rs [H1 H2] _ IH]; intro a; cbn [blocks]; [constructor|]. apply Forall_app; split; [exact H1|]. apply Forall_app; split; [apply be_bytes|]. apply Forall_app; split; [exact H2|apply IH]. Qed.
Lemma built_length compact number next kind id rs : zlen (blocks compact 125 rs) <= 16000 -> zlen (built_to compact number next kind id rs) = 16384.
Proof.
  intro H. unfold built_to. change (@zlen) with (@len) in *. rewrite !len_app. pose proof (front_length compact number next kind id (hd (supremum compact) (origins 125 rs))) as E. change (@zlen) with (@len) in E. rewrite E.
  unfold len at 2. rewrite repeat_length. lia.
Qed.
Lemma built_page_to compact number next kind id rs : Forall fine rs -> zlen (blocks compact 125 rs) <= 16000 ->
  0 <= number < 2 ^ 32 -> 0 <= next < 2 ^ 32 -> 0 <= kind < 2 ^ 16 -> 0 <= id < 2 ^ 64 ->
  let page := built_to compact number next kind id rs in
  in_format compact page /\ page_number page = number /\ field page 12 4 = next /\ field page 24 2 = kind /\ index_of page = id /\ field page 56 8 = 0 /\ field page 64 2 = 0
  /\ chain compact page (infimum compact) (origins 125 rs) (supremum compact)
  /\ Forall2 (fun o r => exists pre l post, page = pre ++ low r ++ be 2 l ++ high r ++ post /\ o = zlen pre + zlen (low r) + 2 /\ 125 <= zlen pre /\ 200 <= zlen post) (origins 125 rs) rs.
Proof.
  intros Hf Hl Hn Hx Hk Hi page. pose proof (built_length compact number next kind id rs Hl) as HL. fold page in HL.
  pose proof (first_bound compact 125 rs ltac:(lia) ltac:(lia)) as Hb. set (first := hd (supremum compact) (origins 125 rs)) in *.
  set (tail := blocks compact 125 rs ++ repeat 0 (Z.to_nat (16384 - 125 - zlen (blocks compact 125 rs)))).
  assert (EP : page = page_front compact number next kind id first ++ tail) by reflexivity.
  assert (Himg : page_image page).
  { split; [exact HL|]. rewrite EP. unfold page_front, tail. destruct compact; repeat first [apply zeros | apply be_bytes | apply blocks_bytes; exact Hf | apply Forall_app; split | constructor; [lia|constructor]]. }
  assert (Hch : linked compact page (infimum compact) first).
  { unfold linked. destruct compact; cbn [infimum].
    - set (f := repeat 0 4 ++ be 4 number ++ repeat 0 4 ++ be 4 next ++ repeat 0 8 ++ be 2 kind ++ repeat 0 16 ++ [128] ++ repeat 0 23 ++ be 8 id ++ repeat 0 23).
      change (99 - 2) with (zlen f). replace page with (f ++ be 2 (link true 99 first) ++ (repeat 0 26 ++ tail)) by (rewrite EP; unfold page_front, f; now rewrite <- !app_assoc).
      rewrite field_there by now apply (link_range true). reflexivity.
    - set (f := repeat 0 4 ++ be 4 number ++ repeat 0 4 ++ be 4 next ++ repeat 0 8 ++ be 2 kind ++ repeat 0 16 ++ [0] ++ repeat 0 23 ++ be 8 id ++ repeat 0 25).
      change (101 - 2) with (zlen f). replace page with (f ++ be 2 first ++ (repeat 0 24 ++ tail)) by (rewrite EP; unfold page_front, f; now rewrite <- !app_assoc).
      rewrite field_there by (change (256 ^ Z.of_nat 2) with 65536; lia). reflexivity. }
  split; [destruct compact; (split; [exact Himg|]); rewrite EP; cbn; lia|].
  set (r1 := repeat 0 4 ++ be 4 next ++ repeat 0 8 ++ be 2 kind ++ repeat 0 16 ++ [if compact then 128 else 0] ++ repeat 0 23 ++ be 8 id
     ++ (if compact then repeat 0 23 ++ be 2 (link true 99 first) ++ repeat 0 26 else repeat 0 25 ++ be 2 first ++ repeat 0 24) ++ tail).
  assert (E1 : page = repeat 0 4 ++ be 4 number ++ r1) by (rewrite EP; unfold page_front, r1; now rewrite <- !app_assoc).
  split; [unfold page_number; rewrite E1; apply (field_there (repeat 0 4)); exact Hn|].
  split; [replace page with ((repeat 0 4 ++ be 4 number ++ repeat 0 4) ++ be 4 next ++ (repeat 0 8 ++ skipn 16 r1)) by (rewrite E1; unfold r1; now rewrite <- !app_assoc); apply (field_there (repeat 0 4 ++ be 4 number ++ repeat 0 4)); exact Hx|].
  set (r2 := repeat 0 16 ++ [if compact then 128 else 0] ++ repeat 0 23 ++ be 8 id
     ++ (if compact then repeat 0 23 ++ be 2 (link true 99 first) ++ repeat 0 26 else repeat 0 25 ++ be 2 first ++ repeat 0 24) ++ tail).
  assert (E2 : page = (repeat 0 4 ++ be 4 number ++ repeat 0 4 ++ be 4 next ++ repeat 0 8) ++ be 2 kind ++ r2) by (rewrite E1; unfold r1, r2; now rewrite <- !app_assoc).
  split; [rewrite E2; apply (field_there (repeat 0 4 ++ be 4 number ++ repeat 0 4 ++ be 4 next ++ repeat 0 8)); exact Hk|].
  set (r3 := (if compact then repeat 0 23 ++ be 2 (link true 99 first) ++ repeat 0 26 else repeat 0 25 ++ be 2 first ++ repeat 0 24) ++ tail).
  set (f3 := repeat 0 4 ++ be 4 number ++ repeat 0 4 ++ be 4 next ++ repeat 0 8 ++ be 2 kind ++ repeat 0 16 ++ [if compact then 128 else 0]).
  assert (E3 : page = (f3 ++ repeat 0 23) ++ be 8 id ++ r3) by (rewrite E2; unfold r2, f3, r3; now rewrite <- !app_assoc).
  split; [rewrite E3; unfold index_of; change 66 with (zlen (f3 ++ repeat 0 23)); apply field_there; exact Hi|].
  split; [|split].
  - assert (E4 : page = (f3 ++ repeat 0 13) ++ be 8 0 ++ (repeat 0 2 ++ be 8 id ++ r3)) by (rewrite E3, <- !app_assoc; reflexivity).
    rewrite E4. change 56 with (zlen (f3 ++ repeat 0 13)). apply field_there. lia.
  - assert (E4 : page = (f3 ++ repeat 0 21) ++ be 2 0 ++ (be 8 id ++ r3)) by (rewrite E3, <- !app_assoc; reflexivity).
    rewrite E4. change 64 with (zlen (f3 ++ repeat 0 21)). apply field_there. lia.
  - pose proof (front_length compact number next kind id first) as FL.
    destruct (blocks_chain compact (repeat 0 (Z.to_nat (16384 - 125 - zlen (blocks compact 125 rs)))) rs (page_front compact number next kind id first) page (infimum compact)) as [C1 C2].
    + rewrite FL. exact EP.
    + exact HL.
    + rewrite FL. exact Hch.
    + rewrite FL in C1, C2. split; [exact C1|]. clear - C2 Hl. revert C2. apply forall2_impl. intros o r [p1 [l [q [H1 [H2 [H3 H4]]]]]]. exists p1, l, q. split; [exact H1|]. split; [exact H2|]. split; [exact H3|].
      unfold zlen at 1 in H4. rewrite repeat_length in H4. unfold zlen in *. lia.
Qed.

Lemma built_page compact number kind id rs : Forall fine rs -> zlen (blocks compact 125 rs) <= 16000 ->
  0 <= number < 2 ^ 32 -> 0 <= kind < 2 ^ 16 -> 0 <= id < 2 ^ 64 ->
  let page := built compact number kind id rs in
  in_format compact page /\ page_number page = number /\ field page 24 2 = kind /\ index_of page = id /\ field page 56 8 = 0 /\ field page 64 2 = 0
  /\ chain compact page (infimum compact) (origins 125 rs) (supremum compact)
  /\ Forall2 (fun o r => exists pre l post, page = pre ++ low r ++ be 2 l ++ high r ++ post /\ o = zlen pre + zlen (low r) + 2 /\ 125 <= zlen pre /\ 200 <= zlen post) (origins 125 rs) rs.
Proof.
  intros Hf Hl Hn Hk Hi. destruct (built_page_to compact number 0 kind id rs Hf Hl Hn ltac:(lia) Hk Hi) as [H1 [H2 [_ H3]]]. split; [exact H1|]. split; [exact H2|exact H3].
Qed.
(** * REDUNDANT records *)
Definition rrec (fs : list rstored) : rec := mkRec (rev (ends (2 ^ 7) 0 fs) ++ [0; 0; 0; 1]) (rbody fs).
Definition small (fs : list rstored) : Prop := Forall (fun b => 0 <= b < 256) (rbody fs) /\ zlen (rbody fs) < 128.
Lemma ends_range fs : forall from, 0 <= from -> from + zlen (rbody fs) < 128 -> Forall (fun b => 0 <= b < 256) (ends (2 ^ 7) from fs).
Proof.
  change (@zlen) with (@len). induction fs as [|f fs IH]; intros from H0 H1; cbn [ends]; constructor; change (rbody (f :: fs)) with (rcontent f ++ rbody fs) in H1; rewrite len_app in H1;
    pose proof (len_nonneg (rcontent f)); pose proof (len_nonneg (rbody fs)); change (@zlen) with (@len).
  - change (2 ^ 7) with 128. destruct f; lia.
  - apply IH; lia.
Qed.
Lemma rrec_fine fs : small fs -> fine (rrec fs).
Proof.
  intros [H1 H2]. split; [|exact H1]. cbn [rrec low]. apply Forall_app. split; [|repeat constructor; lia].
  apply Forall_forall. intros x Hx. apply in_rev in Hx. pose proof (ends_range fs 0 ltac:(lia) ltac:(lia)) as H. rewrite Forall_forall in H. now apply H.
Qed.
Lemma rrec_there page fs pre l post o : page = pre ++ low (rrec fs) ++ be 2 l ++ high (rrec fs) ++ post -> o = zlen pre + zlen (low (rrec fs)) + 2 ->
  zlen (rbody fs) < 128 -> redundant_at page o false fs.
Proof.
  cbn [rrec low high]. intros Hp Ho Hs. exists pre, ([0; 0; 0; 1] ++ be 2 l), post. cbv zeta. split; [rewrite Hp; now rewrite <- !app_assoc|].
  change (@zlen) with (@len) in *. rewrite len_app in *. rewrite len_be. change (len [0; 0; 0; 1]) with 4 in *. split; [lia|]. split; [reflexivity|]. split; [lia|]. change (2 ^ 7) with 128. exact Hs.
Qed.
Lemma holds_built_to {D} (record : D -> list (rstored -> Prop)) number next kind id defs fss : Forall2 (fun d fs => matches (record d) fs) defs fss -> Forall small fss ->
  zlen (blocks false 125 (map rrec fss)) <= 16000 -> 0 <= number < 2 ^ 32 -> 0 <= next < 2 ^ 32 -> 0 <= kind < 2 ^ 16 -> 0 <= id < 2 ^ 64 ->
  holds_records record (built_to false number next kind id (map rrec fss)) defs.
Proof.
  intros HM Hs Hl H1 H1x H2 H3. destruct (built_page_to false number next kind id (map rrec fss)) as [P1 [_ [_ [_ [_ [_ [_ [P2 P3]]]]]]]]; try assumption.
  { clear - Hs. induction Hs; cbn [map]; constructor; [now apply rrec_fine|assumption]. }
  split; [exact P1|]. exists (origins 125 (map rrec fss)). split; [exact P2|]. destruct P1 as [[PL _] _]. revert PL P3. generalize (built_to false number next kind id (map rrec fss)) as page. generalize (origins 125 (map rrec fss)) as os. clear - HM Hs.
  intros os page PL P3. revert os P3. induction HM as [|d fs defs fss Hm _ IH]; intros os P3; inversion P3 as [|o ? os' ? HX P3']; subst; constructor.
  - inversion Hs as [|? ? [Hb1 Hb2] _]; subst. destruct HX as [pre [l [post [E1 [E2 [E3 E4]]]]]]. split.
    + assert (EL : zlen page = zlen pre + zlen (low (rrec fs)) + 2 + zlen (high (rrec fs)) + zlen post) by (rewrite E1; change (@zlen) with (@len); rewrite !len_app, len_be; lia).
      rewrite PL in EL. unfold user_origin. unfold zlen in *. lia.
    + exists false, fs. split; [|exact Hm]. now apply (rrec_there page fs pre l post).
  - inversion Hs; subst. now apply IH.
Qed.
Lemma holds_built {D} (record : D -> list (rstored -> Prop)) number kind id defs fss : Forall2 (fun d fs => matches (record d) fs) defs fss -> Forall small fss ->
  zlen (blocks false 125 (map rrec fss)) <= 16000 -> 0 <= number < 2 ^ 32 -> 0 <= kind < 2 ^ 16 -> 0 <= id < 2 ^ 64 ->
  holds_records record (built false number kind id (map rrec fss)) defs.
Proof. intros. apply holds_built_to; assumption || lia. Qed.
(** A page of node pointers. *)
Lemma pointers_built key number next kind id fss : fss <> [] -> Forall (fun fs => exists ks child, fs = ks ++ [child] /\ Forall2 (fun (p : rstored -> Prop) f => p f) key ks /\ is_wide 4 child) fss ->
  Forall small fss -> zlen (blocks false 125 (map rrec fss)) <= 16000 -> 0 <= number < 2 ^ 32 -> 0 <= next < 2 ^ 32 -> 0 <= kind < 2 ^ 16 -> 0 <= id < 2 ^ 64 ->
  holds_pointers key (built_to false number next kind id (map rrec fss)).
Proof.
  intros Hne HM Hs Hl H1 H1x H2 H3.
  destruct (holds_built_to (fun fs : list rstored => map (@eq rstored) fs) number next kind id fss fss) as [P [offs [Hc HF]]]; try assumption.
  { clear. induction fss as [|fs rest IH]; constructor; [|exact IH]. exists fs, []. split; [now rewrite app_nil_r|]. induction fs as [|f fs IHf]; constructor; [reflexivity|exact IHf]. }
  split; [exact P|]. destruct offs as [|off offs]; [inversion HF; subst; contradiction|]. exists off, offs. split; [exact Hc|].
  revert HF. generalize (built_to false number next kind id (map rrec fss)) as page. intros page HF. clear - HM HF. revert HM. generalize (off :: offs) as os, HF. clear. intros os HF HM.
  induction HF as [|o fs os fss [Hu [wide [fs' [Hat [front [extra [-> HE]]]]]]] _ IH]; [constructor|].
  inversion HM as [|? ? [ks [child [E [HK HW]]]] HM']; subst. constructor; [|now apply IH]. split; [exact Hu|]. exists wide, ks, child. split; [|split; assumption].
  assert (Ef : ks ++ [child] = front).
  { clear - HE. revert front HE. induction (ks ++ [child]) as [|x l IH]; intros front HE; inversion HE; subst; [reflexivity|]. f_equal. now apply IH. }
  rewrite Ef. now apply (redundant_prefix _ _ _ _ extra).
Qed.
(** * COMPACT records *)
Definition crec (ls : list layout) (fs : list stored) : rec :=
  mkRec (rev (lengths ls fs) ++ be (Z.to_nat ((nullable_count ls + 7) / 8)) (flags_number (null_flags ls fs)) ++ [0; 0; 0]) (body fs).
Lemma page_built rt ss number id fss rows : Forall2 (fun fs vs => Forall2 fits (map slot_layout ss) fs /\ row_encodes rt ss vs fs) fss rows ->
  Forall fine (map (crec (map slot_layout ss)) fss) ->
  zlen (blocks true 125 (map (crec (map slot_layout ss)) fss)) <= 16000 -> 0 <= number < 2 ^ 32 -> 0 <= id < 2 ^ 64 ->
  page_holds rt false ss (built true number 17855 id (map (crec (map slot_layout ss)) fss)) rows.
Proof.
  intros HR Hf Hl H1 H2. set (ls := map slot_layout ss) in *. destruct (built_page true number 17855 id (map (crec ls) fss)) as [P1 [_ [_ [_ [_ [_ [P2 P3]]]]]]]; try assumption; try lia.
  exists true, (origins 125 (map (crec ls) fss)). split; [exact P1|]. split; [exact P2|]. destruct P1 as [[PL _] _]. clear Hl P2. revert PL P3. generalize (built true number 17855 id (map (crec ls) fss)) as page. generalize (origins 125 (map (crec ls) fss)) as os.
  intros os page PL P3. revert os P3. clear Hf. induction HR as [|fs vs fss rows [Hfit Hre] _ IH]; intros os P3; inversion P3 as [|o ? os' ? HX P3']; subst; constructor; [|now apply IH]. destruct HX as [pre [l [post [E1 [E2 [E3 E4]]]]]].
  assert (EL : zlen page = zlen pre + zlen (low (crec ls fs)) + 2 + zlen (high (crec ls fs)) + zlen post) by (rewrite E1; change (@zlen) with (@len); rewrite !len_app, len_be; lia).
  rewrite PL in EL. split; [unfold user_origin; unfold zlen in *; lia|]. exists fs. split; [|split; [cbn [crec high] in EL; lia|exact Hre]].
  cbn [crec low high] in *. exists pre, ([0; 0; 0] ++ be 2 l), post. split; [rewrite E1; now rewrite <- !app_assoc|]. split; [lia|].
  rewrite E2. change (@zlen) with (@len) in *. rewrite !len_app, len_rev, !len_be. change (len [0; 0; 0]) with 3. split; [lia|]. split; [|exact Hfit].
  pose proof (nullable_nonneg ls). rewrite Z2Nat.id by (apply Z.div_pos; lia). fold ls. lia.
Qed.
