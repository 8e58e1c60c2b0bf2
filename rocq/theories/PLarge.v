(** Lemmas about files of larger pages, read in blocks. *)
From Coq Require Import ZifyBool.
From Verif Require Import GoBase Utils Ibdata SpecInno SpecText SpecSql SpecRecord SpecRow SpecPage SpecDict SpecTool SpecSmall SpecLarge
  PBase PWire PPage PFile PTool PropFile PropSmall.
Local Open Scope list_scope.
Local Open Scope Z_scope.

(** * Lists *)
Lemma flat_map_split {A B} (g : A -> list B) : forall ps l1 b l2, flat_map g ps = l1 ++ b :: l2 ->
  exists ps1 p ps2 c1 c2, ps = ps1 ++ p :: ps2 /\ g p = c1 ++ b :: c2 /\ l1 = flat_map g ps1 ++ c1.
Proof.
  induction ps as [|p ps IH]; intros l1 b l2 E; cbn [flat_map] in E; [now destruct l1|].
  assert (S : (exists c2, g p = l1 ++ b :: c2) \/ exists m, l1 = g p ++ m /\ flat_map g ps = m ++ b :: l2).
  { revert l1 E. generalize (g p) as x. induction x as [|y x IHx]; intros l1 E; cbn [app] in E.
    - right. now exists l1.
    - destruct l1 as [|z l1]; cbn [app] in E; injection E as -> E; [left; now exists x|]. destruct (IHx l1 E) as [[c2 ->]|[m [-> H]]]; [left; now exists c2|right; now exists m]. }
  destruct S as [[c2 Hg]|[m [-> Hm]]].
  - exists [], p, ps, l1, c2. auto.
  - destruct (IH m b l2 Hm) as [ps1 [q [ps2 [c1 [c2 [-> [H1 ->]]]]]]]. exists (p :: ps1), q, ps2, c1, c2. split; [reflexivity|]. split; [exact H1|]. cbn [flat_map]. now rewrite app_assoc.
Qed.
(** pages that have their numbers for themselves are all kept *)
Lemma firsts_own (f : list Z -> bool) (l : list (list Z)) :
  (forall l1 p l2, l = l1 ++ p :: l2 -> f p = true -> Forall (fun q => page_number q <> page_number p) l1) ->
  filter f (firsts l) = filter f l.
Proof.
  intro H. unfold firsts. rewrite <- (rev_involutive l) at 2.
  assert (H' : forall m p b, rev l = m ++ p :: b -> f p = true -> Forall (fun q => page_number q <> page_number p) b).
  { intros m p b E Hf. assert (E' : l = rev b ++ p :: rev m) by (rewrite <- (rev_involutive l), E, rev_app_distr; cbn [rev]; now rewrite <- app_assoc).
    specialize (H _ _ _ E' Hf). apply Forall_forall. intros q Hq. rewrite Forall_forall in H. apply H. now apply -> in_rev. }
  clear H. revert H'. induction (rev l) as [|p b IH]; intro H; [reflexivity|]. cbn [firsts_rev rev]. rewrite !filter_app, IH.
  - f_equal. cbn [filter]. destruct (f p) eqn:Ef.
    + replace (existsb _ b) with false; [cbn [filter]; now rewrite Ef|]. symmetry. specialize (H [] p b eq_refl Ef). apply not_true_iff_false. intro X. apply existsb_exists in X as [q [Hq X]].
      rewrite Forall_forall in H. apply (H q Hq). lia.
    + destruct (existsb _ b); cbn [filter]; now rewrite ?Ef.
  - intros m q b' E Hf. apply (H (p :: m) q b'); [cbn [app]; now rewrite E|exact Hf].
Qed.

Lemma cons_same {A} (x y : A) l m : x :: l = y :: m -> x = y /\ l = m.
Proof. intro E. injection E as -> ->. split; reflexivity. Qed.

(** * The first block of a page *)
Definition first_block (page : list Z) : list Z := firstn (Z.to_nat 16384) page.
Lemma first_whole page : page = first_block page ++ skipn (Z.to_nat 16384) page.
Proof. symmetry. apply firstn_skipn. Qed.
Lemma first_image k page : (0 < k)%nat -> large_image k page -> page_image (first_block page).
Proof.
  intros Hk [HL HB]. split; [|now apply firstn_forall]. unfold zlen, first_block in *. rewrite firstn_length. lia.
Qed.
Lemma first_field k page p n : (0 < k)%nat -> large_image k page -> 0 <= p -> p + Z.of_nat n <= 16384 -> field (first_block page) p n = field page p n.
Proof.
  intros Hk HI H0 H1. destruct (first_image k page Hk HI) as [HL _]. rewrite (first_whole page) at 2. symmetry. apply field_first; [exact H0|]. rewrite HL. exact H1.
Qed.
Lemma first_number k page : (0 < k)%nat -> large_image k page -> page_number (first_block page) = page_number page.
Proof. intros Hk HI. unfold page_number. apply (first_field k); [exact Hk|exact HI|lia|lia]. Qed.
Lemma first_eligible k deleted page : (0 < k)%nat -> large_image k page ->
  eligible deleted (first_block page) = large_leaf deleted page && (negb deleted || (field page 44 2 <? 16384)).
Proof.
  intros Hk HI. unfold eligible, large_leaf. rewrite !(first_field k page _ _ Hk HI) by lia. destruct deleted; cbn [negb orb]; [|now rewrite !andb_true_r].
  destruct (field page 24 2 =? 17855), (field page 64 2 =? 0), (field page 56 8 =? 0), (0 <? field page 44 2), (field page 44 2 <? 16384), (field page 46 2 =? 0); reflexivity.
Qed.
Lemma first_linked k compact page a b : (0 < k)%nat -> large_image k page -> 2 <= a <= 16384 -> linked compact page a b -> linked compact (first_block page) a b.
Proof. intros Hk HI Ha. unfold linked. now rewrite (first_field k page _ _ Hk HI) by lia. Qed.
Lemma first_format k compact page : (0 < k)%nat -> large_image k page -> (if compact : bool then 128 <= nth 42 page 0 else nth 42 page 0 < 128) -> in_format compact (first_block page).
Proof.
  intros Hk HI H. pose proof (first_image k page Hk HI) as HF.
  assert (E : nth 42 (first_block page) 0 = nth 42 page 0).
  { rewrite (first_whole page) at 2. rewrite app_nth1; [reflexivity|]. destruct HF as [HF _]. unfold zlen in HF. lia. }
  destruct compact; (split; [exact HF|]); lia.
Qed.
(** the same record in the first block *)
Lemma split_first {A} (a b x y : list A) : a ++ b = x ++ y -> (List.length a <= List.length x)%nat -> exists m, x = a ++ m /\ b = m ++ y.
Proof.
  revert x. induction a as [|z a IH]; intros x E H; [now exists x|]. destruct x as [|w x]; cbn in *; [lia|]. injection E as -> E. destruct (IH x E) as [m [-> ->]]; [lia|]. now exists m.
Qed.
Lemma first_stored k compact page off ls fs : (0 < k)%nat -> large_image k page -> stored_at compact page off ls fs -> off + zlen (body fs) <= 16384 -> stored_at compact (first_block page) off ls fs.
Proof.
  intros Hk HI HS HL. destruct (first_image k page Hk HI) as [HF _].
  assert (K : forall front post, page = front ++ post -> zlen front <= 16384 -> exists post', first_block page = front ++ post').
  { intros front post E H. rewrite (first_whole page) in E. symmetry in E. unfold zlen in *. apply split_first in E as [m [E _]]; [now exists m|lia]. }
  destruct compact; cbn [stored_at] in *.
  - destruct HS as [pre [header [post [E [H1 [H2 [H3 H4]]]]]]].
    pose proof (K (pre ++ rev (lengths ls fs) ++ be (Z.to_nat ((nullable_count ls + 7) / 8)) (flags_number (null_flags ls fs)) ++ header ++ body fs) post) as K1.
    destruct K1 as [post' E']; [rewrite <- !app_assoc; exact E| |].
    + unfold zlen in *. rewrite !app_length, rev_length, be_length.
      assert (0 <= (nullable_count ls + 7) / 8) by (apply Z.div_pos; [unfold nullable_count, zlen; lia|lia]). lia.
    + exists pre, header, post'. split; [rewrite E', <- !app_assoc; reflexivity|]. auto.
  - destruct HS as [wide [vs [-> [[pre [header [post [E [H1 [H2 [H3 H4]]]]]]] HR]]]]. exists wide, vs. split; [reflexivity|]. split; [|exact HR].
    set (offsets := if wide then _ else _) in *.
    assert (EB : rbody (map RBytes vs) = body (map FBytes vs)) by (unfold rbody, body; rewrite !flat_map_concat_map, !map_map; reflexivity).
    pose proof (K (pre ++ offsets ++ header ++ rbody (map RBytes vs)) post) as K1.
    destruct K1 as [post' E']; [rewrite <- !app_assoc; exact E| |].
    + rewrite <- EB in HL. unfold zlen in *. rewrite !app_length. lia.
    + exists pre, header, post'. fold offsets. split; [rewrite E', <- !app_assoc; reflexivity|]. auto.
Qed.

(** * What is read of a page *)
Section Page.
Context (rt : runtime) (k : nat) (ss : list slot) (compact : bool) (page : list Z).
Context (Hk : (0 < k)%nat) (Hk4 : (k <= 4)%nat) (HI : large_image k page).
Let far_record (r : Z * list sqlval) : Prop := 120 <= fst r <= Z.of_nat k * 16384 - 12 /\ exists fs, stored_at compact page (fst r) (map slot_layout ss) fs
  /\ row_encodes rt ss (snd r) fs /\ fst r + zlen (body fs) <= Z.of_nat k * 16384 - 8 /\ ((fst r <= 16372 /\ fst r + zlen (body fs) <= 16376) \/ 16378 <= fst r).
Let near_record (off : Z) (vs : list sqlval) : Prop := user_origin off /\ exists fs, stored_at compact (first_block page) off (map slot_layout ss) fs
  /\ off + zlen (body fs) <= 16384 - 8 /\ row_encodes rt ss vs fs.
Lemma record_near r : far_record r -> fst r < 16378 -> near_record (fst r) (snd r).
Proof.
  intros [H1 [fs [H2 [H3 [H4 H5]]]]] H. assert (H6 : fst r <= 16372 /\ fst r + zlen (body fs) <= 16376) by lia. split; [unfold user_origin; lia|].
  exists fs. split; [apply (first_stored k); try assumption; lia|]. split; [lia|exact H3].
Qed.
Lemma record_far r : far_record r -> 16378 <= fst r -> 16378 <= fst r < 65536.
Proof. intros [H1 _] H. lia. Qed.
Lemma live_cut : forall records a, 2 <= a <= 16384 -> Forall far_record records -> chain compact page a (map fst records) (supremum compact) ->
  exists offs z, stops compact z /\ chain compact (first_block page) a offs z /\ Forall2 near_record offs (before_far records).
Proof.
  induction records as [|[off vs] records IH]; intros a Ha HR HC; cbn [map fst] in HC.
  - inversion HC as [? ? Hl|]; subst. exists [], (supremum compact). split; [now left|]. split; [|constructor]. constructor. now apply (first_linked k).
  - inversion HC as [|? ? ? ? Hl HC']; subst. inversion HR as [|? ? H1 HR']; subst. cbn [before_far]. destruct (Z.ltb_spec off 16378) as [Hn|Hf].
    + pose proof (record_near _ H1 Hn) as N1. cbn [fst snd] in N1. destruct (IH off) as [offs [z [Z1 [Z2 Z3]]]]; [destruct N1 as [N1 _]; unfold user_origin in N1; lia|exact HR'|exact HC'|].
      exists (off :: offs), z. split; [exact Z1|]. split; [|now constructor]. constructor; [now apply (first_linked k)|exact Z2].
    + exists [], off. split; [right; exact (record_far _ H1 Hf)|]. split; [|constructor]. constructor. now apply (first_linked k).
Qed.
Lemma freed_cut : forall records off vs, off < 16378 -> Forall far_record ((off, vs) :: records) -> free_chain compact page (off :: map fst records) ->
  exists offs, Forall2 near_record (off :: offs) (before_far ((off, vs) :: records))
    /\ (free_chain compact (first_block page) (off :: offs) \/ exists z, 16378 <= z < 65536 /\ chain compact (first_block page) off offs z).
Proof.
  induction records as [|[o2 vs2] records IH]; intros off vs Hn HR HC; inversion HR as [|? ? H1 HR']; subst; pose proof (record_near _ H1 Hn) as N1; cbn [fst snd] in N1;
    assert (Ho : 2 <= off <= 16384) by (destruct N1 as [N1 _]; unfold user_origin in N1; lia); cbn [before_far]; (replace (off <? 16378) with true by lia); cbn [map fst] in HC.
  - inversion HC as [? H0|]; subst. exists []. split; [constructor; [exact N1|constructor]|]. left. constructor. rewrite (first_field k page _ _ Hk HI) by lia. exact H0.
  - inversion HC as [|? ? ? H0 Hl HC']; subst. inversion HR' as [|? ? H2 _]; subst. destruct (Z.ltb_spec o2 16378) as [Hn2|Hf].
    + destruct (IH o2 vs2 Hn2 HR' HC') as [offs [I1 I2]]. exists (o2 :: offs). split; [constructor; [exact N1|]; cbn [before_far] in I1; now replace (o2 <? 16378) with true in I1 by lia|].
      pose proof (first_linked k compact page off o2 Hk HI Ho Hl) as L. destruct I2 as [I2|[z [Z1 Z2]]]; [left; constructor; [rewrite (first_field k page _ _ Hk HI) by lia; exact H0|exact L|exact I2]|].
      right. exists z. split; [exact Z1|]. now constructor.
    + exists []. split; [constructor; [exact N1|constructor]|]. right. exists o2. split; [exact (record_far _ H2 Hf)|]. constructor. now apply (first_linked k).
Qed.
End Page.
Lemma large_cut rt deleted k ss page records : (0 < k <= 4)%nat -> large_image k page -> large_holds rt deleted k ss page records ->
  eligible deleted (first_block page) = true -> page_cut rt deleted ss (first_block page) (before_far records).
Proof.
  intros [Hk Hk4] HI [compact [HF [HC HR]]] HE. pose proof (first_format k compact page Hk HI HF) as Hfmt. destruct deleted.
  - destruct HC as [HC Hh]. destruct records as [|[off vs] records]; [inversion HC|]. cbn [map fst hd_error] in Hh, HC. injection Hh as Hh.
    destruct (Z.lt_ge_cases off 16378) as [Hn|Hf].
    + destruct (freed_cut rt k ss compact page Hk Hk4 HI records off vs Hn HR HC) as [offs [R1 R2]]. exists compact, (off :: offs). split; [exact Hfmt|]. split; [|exact R1].
      rewrite (first_field k page _ _ Hk HI) by lia. destruct R2 as [R2|[z [Z1 Z2]]]; [left; split; [exact R2|now rewrite Hh]|right; exists z; split; [exact Z1|now split]].
    + exists compact, []. split; [exact Hfmt|]. cbn [before_far]. replace (off <? 16378) with false by lia. split; [|constructor]. right. exists off.
      inversion HR as [|? ? [H1 _] _]; subst. cbn [fst] in H1. split; [lia|]. now rewrite (first_field k page _ _ Hk HI) by lia.
  - destruct (live_cut rt k ss compact page Hk Hk4 HI records (infimum compact)) as [offs [z [Z1 [Z2 Z3]]]]; [destruct compact; cbn; lia|exact HR|exact HC|].
    exists compact, offs. split; [exact Hfmt|]. split; [|exact Z3]. exists z. auto.
Qed.
Lemma large_skipped rt deleted k ss page records : (0 < k)%nat -> large_image k page -> large_holds rt deleted k ss page records -> large_leaf deleted page = true ->
  eligible deleted (first_block page) = false -> before_far records = [].
Proof.
  intros Hk HI [compact [HF [HC HR]]] HL HE. rewrite (first_eligible k deleted page Hk HI), HL in HE. destruct deleted; [|discriminate HE]. cbn [negb orb andb] in HE.
  destruct HC as [HC Hh]. destruct records as [|[off vs] records]; [reflexivity|]. cbn [map fst hd_error] in Hh. injection Hh as Hh. cbn [before_far].
  replace (off <? 16378) with false by lia. reflexivity.
Qed.

(** * What is read of a file *)
Lemma file_blocks deleted k ps : (0 < k)%nat -> Forall (large_image k) ps ->
  (forall i j p q, nth_error ps i = Some p -> nth_error ps j = Some q -> large_leaf deleted p = true -> page_number p = page_number q -> i = j) ->
  Forall (fun p => Forall (fun b => eligible deleted b = false
       /\ forall l, In l ps -> large_leaf deleted l = true -> page_number b <> page_number l) (tl (cut_page k p))) ps ->
  filter (eligible deleted) (firsts (blocks_of k ps)) = map first_block (filter (fun p => eligible deleted (first_block p)) ps).
Proof.
  intros Hk HI HN HT. destruct k as [|k]; [lia|].
  rewrite firsts_own.
  - assert (HT0 : Forall (fun p => Forall (fun b => eligible deleted b = false) (tl (cut_page (S k) p))) ps) by (revert HT; apply Forall_impl; intro p; apply Forall_impl; tauto).
    clear HN HT. unfold blocks_of. induction HT0 as [|p ps H1 _ IH]; [reflexivity|]. inversion HI as [|? ? Hp HI']; subst. cbn [flat_map]. rewrite filter_app, (IH HI').
    cbn [cut_page tl] in *. cbn [filter app]. fold (first_block p).
    assert (E : filter (eligible deleted) (cut_page k (skipn (Z.to_nat 16384) p)) = []).
    { clear - H1. induction H1 as [|b bs Hb _ IH]; [reflexivity|]. cbn [filter]. rewrite Hb. exact IH. }
    rewrite E. destruct (eligible deleted (first_block p)); reflexivity.
  - intros l1 b l2 E Hb. destruct (flat_map_split _ _ _ _ _ E) as [ps1 [p [ps2 [c1 [c2 [Eps [Eb ->]]]]]]].
    assert (Hp : In p ps) by (rewrite Eps; apply in_elt). rewrite Forall_forall in HI, HT.
    assert (E1 : c1 = [] /\ b = first_block p).
    { destruct c1 as [|c c1]; cbn [cut_page app] in Eb; apply cons_same in Eb as [Eb1 Eb]; [split; [reflexivity|symmetry; exact Eb1]|]. exfalso. specialize (HT p Hp). cbn [cut_page tl] in HT. rewrite Eb in HT.
      rewrite Forall_forall in HT. destruct (HT b (in_elt _ _ _)) as [X _]. rewrite X in Hb. discriminate Hb. }
    destruct E1 as [-> ->]. rewrite app_nil_r. pose proof Hb as HL. rewrite (first_eligible (S k) deleted p Hk (HI p Hp)) in HL. apply andb_prop in HL as [HL _].
    apply Forall_forall. intros q Hq. apply in_flat_map in Hq as [p' [Hp' Hq]]. rewrite (first_number (S k) p Hk (HI p Hp)). cbn [cut_page] in Hq. destruct Hq as [<-|Hq].
    + assert (Hin : In p' ps) by (rewrite Eps; apply in_or_app; now left). fold (first_block p'). rewrite (first_number (S k) p' Hk (HI p' Hin)). intro X.
      apply In_nth_error in Hp' as [i Hi]. assert (Hi' : nth_error ps i = Some p') by (rewrite Eps, nth_error_app1; [exact Hi|apply nth_error_Some; congruence]).
      assert (Hj : nth_error ps (List.length ps1) = Some p) by (rewrite Eps, nth_error_app2, Nat.sub_diag by lia; reflexivity).
      pose proof (HN _ _ _ _ Hj Hi' HL (eq_sym X)) as Eij. subst i. rewrite (proj2 (nth_error_None ps1 (List.length ps1))) in Hi by lia. discriminate Hi.
    + assert (Hin : In p' ps) by (rewrite Eps; apply in_or_app; now left). specialize (HT p' Hin). cbn [cut_page tl] in HT. rewrite Forall_forall in HT. destruct (HT q Hq) as [_ X]. now apply X.
Qed.
Lemma cut_images k : forall page, large_image k page -> Forall page_image (cut_page k page).
Proof.
  induction k as [|k IH]; intros page HI; cbn [cut_page]; [constructor|]. constructor; [exact (first_image (S k) page ltac:(lia) HI)|]. apply IH. destruct HI as [HL HB].
  split; [|now apply skipn_forall]. unfold zlen in *. rewrite skipn_length. lia.
Qed.
Lemma file_large rt deleted k ss ps contents : (0 < k <= 4)%nat -> large_file rt deleted k ss ps contents ->
  file_cut rt deleted ss (blocks_of k ps) (List.concat (map before_far contents)).
Proof.
  intros Hk [HI [HC [HN HT]]]. split.
  - apply Forall_forall. intros b Hb. apply in_flat_map in Hb as [p [Hp Hb]]. rewrite Forall_forall in HI. pose proof (cut_images k p (HI p Hp)) as X. rewrite Forall_forall in X. now apply X.
  - rewrite (file_blocks deleted k ps) by (try assumption; lia). clear HN HT. revert contents HC. induction HI as [|p ps Hp _ IH]; intros contents HC.
    + inversion HC; subst. exists []. split; [constructor|reflexivity].
    + cbn [filter] in *. destruct (large_leaf deleted p) eqn:HL.
      * inversion HC as [|? c ? cs H1 HC']; subst. destruct (IH cs HC') as [contents' [A B]]. destruct (eligible deleted (first_block p)) eqn:HE.
        -- exists (before_far c :: contents'). split; [constructor; [now apply (large_cut rt deleted k)|exact A]|]. cbn [map List.concat]. now rewrite B.
        -- exists contents'. split; [exact A|]. cbn [map List.concat]. rewrite (large_skipped rt deleted k ss p c) by (try assumption; lia). exact B.
      * destruct (IH contents HC) as [contents' [A B]]. exists contents'. split; [|exact B]. replace (eligible deleted (first_block p)) with false; [exact A|]. rewrite (first_eligible k) by (try assumption; lia). now rewrite HL.
Qed.
