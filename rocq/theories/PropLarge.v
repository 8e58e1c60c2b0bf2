(** C116: instances with larger pages. *)
From Coq Require Import String ZifyBool.
From Verif Require Import GoBase Utils Ibdata Redo Cmd SpecInno SpecText SpecSql SpecRecord SpecRow SpecPage SpecDict SpecTool SpecRedo SpecUndo SpecToolRedo SpecCmd SpecSmall SpecLarge
  PBase PWire PValue PText PRec PPage PSql PFile PDict PBuild PMove PUndo PLog PTool PToolRedo PLarge PropDict PropCmd PropFile PropTool PropRedo PropToolRedo PropSmall.
Local Open Scope string_scope.
Local Open Scope list_scope.
Local Open Scope Z_scope.

Lemma cut_alike rt deleted ss ss' pages rows : Forall2 alike_slot ss ss' -> file_cut rt deleted ss pages rows -> file_cut rt deleted ss' pages rows.
Proof.
  intros H [Hi [cs [HC E]]]. split; [exact Hi|]. exists cs. split; [|exact E]. revert HC. apply forall2_impl. intros page vss [compact [offs [A [B C]]]].
  exists compact, offs. split; [exact A|]. split; [exact B|]. revert C. apply forall2_impl. intros off vs [U [fs [S [L R]]]]. split; [exact U|].
  exists fs. rewrite <- (layouts_alike ss ss' H). split; [exact S|]. split; [exact L|]. now apply (rows_alike rt ss).
Qed.
Lemma before_map {A B} (f : A -> B) (records : list (Z * A)) : before_far (map (fun r => (fst r, f (snd r))) records) = map f (before_far records).
Proof. induction records as [|[off a] records IH]; [reflexivity|]. cbn [map before_far fst snd]. destruct (off <? 16378); cbn [map]; now rewrite ?IH. Qed.
Lemma before_maps {A B} (f : A -> B) (contents : list (list (Z * A))) :
  List.concat (map before_far (map (map (fun r => (fst r, f (snd r)))) contents)) = map f (List.concat (map before_far contents)).
Proof. induction contents as [|c cs IH]; [reflexivity|]. cbn [map List.concat]. rewrite before_map, map_app. now rewrite IH. Qed.
Lemma before_all {A} (records : list (Z * A)) : Forall (fun r => fst r < 16378) records -> before_far records = map snd records.
Proof. induction 1 as [|[off a] records H _ IH]; [reflexivity|]. cbn [before_far map snd fst] in *. replace (off <? 16378) with true by lia. now rewrite IH. Qed.
Lemma before_short {A} (records : list (Z * A)) : (List.length (before_far records) <= List.length records)%nat.
Proof. induction records as [|[off a] records IH]; [reflexivity|]. cbn [before_far]. destruct (off <? 16378); cbn [List.length]; lia. Qed.
Lemma before_shorter {A} (records : list (Z * A)) : Exists (fun r => 16378 <= fst r) records -> (List.length (before_far records) < List.length records)%nat.
Proof.
  induction 1 as [[off a] records H|[off a] records _ IH]; cbn [before_far fst] in *.
  - replace (off <? 16378) with false by lia. cbn [List.length]. lia.
  - destruct (off <? 16378); cbn [List.length]; lia.
Qed.

(** Pages of 32768 or 65536 bytes: of each leaf just the rows before the first
    record (in the order of the list) that lies behind the first 16384 bytes
    are printed, and nothing is said about the others. *)
Theorem C116_cut_refuted : forall fuel rt files op sys tfile k d sys_pages t db tb ss pages contents,
  (0 < k <= 4)%nat -> large_input rt (is_deleted op) k d sys_pages t db tb ss pages contents -> front_key d (td_id t) ->
  files sys = Some (map IoBytes (blocks_of k sys_pages)) -> files tfile = Some (map IoBytes (blocks_of k pages)) -> (Z.to_nat 16384 < fuel)%nat ->
  exists lines, FromDataFile fuel rt files op sys tfile db tb = (lines, Ok tt)
    /\ Forall2 (fun r line => read_replace line = Some (db, tb, values (columns_of d (td_id t)) r)) (List.concat (map before_far contents)) lines.
Proof.
  intros fuel rt files op sys tfile k d sys_pages t db tb ss pages contents Hk4 [Hs [Hc [Hnd [Ht [Hnm [Hdb [Hb1 [Hb2 [Hne [Hro [Hss HL]]]]]]]]]]] Hk F1 F2 Hfuel.
  pose proof (file_large rt _ k ss pages _ Hk4 HL) as HF. rewrite before_maps in HF. set (rows := List.concat (map before_far contents)) in *. clearbody rows.
  assert (HX : forall lines, Forall2 (fun vs line => read_replace line = Some (db, tb, vs)) (map (values (columns_of d (td_id t))) rows) lines ->
    Forall2 (fun r line => read_replace line = Some (db, tb, values (columns_of d (td_id t)) r)) rows lines).
  { clear. induction rows as [|r rows IH]; intros lines H; inversion H; subst; constructor; auto. }
  destruct Hk as [Hk|[key [rest [Hk [HE [Hkn Ha]]]]]].
  - assert (Es : ss = no_key_slots (columns_of d (td_id t))).
    { destruct Hss as [[_ ->]|[key [rest [Hkey _]]]]; [reflexivity|]. exfalso. exact (one_index d (td_id t) key rest Hc Hkey Hk). }
    rewrite Es, users_keyless in HF. destruct (tool_keyless_cut fuel rt files op sys tfile d (blocks_of k sys_pages) t db tb (blocks_of k pages) (map (values (columns_of d (td_id t))) rows)) as [lines [E H]]; try assumption.
    exists lines. split; [exact E|]. apply HX. now apply (said_reads rt).
  - assert (Es : ss = key_slots key rest).
    { destruct Hss as [[Hno _]|[key' [rest' [Hkey ->]]]]; [exfalso; exact (one_index d (td_id t) key rest Hc Hk Hno)|].
      destruct (same_key d (td_id t) _ _ _ _ Hc Hkey Hk) as [-> ->]. reflexivity. }
    rewrite Es, users_keyed in HF. rewrite <- HE in HF. apply (cut_alike rt _ _ _ _ _ (key_alike key rest Ha)) in HF.
    destruct (tool_leading_cut fuel rt files op sys tfile d (blocks_of k sys_pages) t db tb key rest (blocks_of k pages) (map (values (columns_of d (td_id t))) rows)) as [lines [E H]]; try assumption.
    + destruct Hk as [i [Hi [Hp [Hn _]]]]. exists i. auto.
    + exists lines. split; [exact E|]. apply HX. now apply (said_reads rt).
Qed.
Print Assumptions C116_cut_refuted.
(** As soon as one record lies there, rows are missing. *)
Theorem C116_lost_refuted : forall fuel rt files op sys tfile k d sys_pages t db tb ss pages contents,
  (0 < k <= 4)%nat -> large_input rt (is_deleted op) k d sys_pages t db tb ss pages contents -> front_key d (td_id t) ->
  files sys = Some (map IoBytes (blocks_of k sys_pages)) -> files tfile = Some (map IoBytes (blocks_of k pages)) -> (Z.to_nat 16384 < fuel)%nat ->
  Exists (Exists (fun r => 16378 <= fst r)) contents ->
  exists lines, FromDataFile fuel rt files op sys tfile db tb = (lines, Ok tt) /\ (List.length lines < List.length (List.concat contents))%nat.
Proof.
  intros fuel rt files op sys tfile k d sys_pages t db tb ss pages contents Hk4 HL Hk F1 F2 Hfuel HE.
  destruct (C116_cut_refuted fuel rt files op sys tfile k d sys_pages t db tb ss pages contents Hk4 HL Hk F1 F2 Hfuel) as [lines [E H]]. exists lines. split; [exact E|].
  pose proof (forall2_length _ _ _ H) as EL. apply Nat.le_lt_trans with (List.length (List.concat (map before_far contents))); [rewrite EL; apply Nat.le_refl|]. clear - HE.
  assert (HA : forall cs : list (list (Z * row)), (List.length (List.concat (map before_far cs)) <= List.length (List.concat cs))%nat).
  { induction cs as [|c cs IH]; [reflexivity|]. cbn [map List.concat]. rewrite !app_length. pose proof (before_short c). lia. }
  induction HE as [c cs H|c cs _ IH]; cbn [map List.concat]; rewrite !app_length.
  - pose proof (before_shorter c H). specialize (HA cs). lia.
  - pose proof (before_short c). lia.
Qed.
Print Assumptions C116_lost_refuted.
(** Full statement: the rows of an instance with any page size are recovered.
    Proved for larger pages whose records all lie in the first 16384 bytes.
    Missing (false): any others. *)
Theorem C116_whole_partial : forall fuel rt files op sys tfile k d sys_pages t db tb ss pages contents,
  (0 < k <= 4)%nat -> large_input rt (is_deleted op) k d sys_pages t db tb ss pages contents -> front_key d (td_id t) ->
  files sys = Some (map IoBytes (blocks_of k sys_pages)) -> files tfile = Some (map IoBytes (blocks_of k pages)) -> (Z.to_nat 16384 < fuel)%nat ->
  Forall (Forall (fun r => fst r < 16378)) contents ->
  exists lines, FromDataFile fuel rt files op sys tfile db tb = (lines, Ok tt)
    /\ Forall2 (fun r line => read_replace line = Some (db, tb, values (columns_of d (td_id t)) r)) (map snd (List.concat contents)) lines.
Proof.
  intros fuel rt files op sys tfile k d sys_pages t db tb ss pages contents Hk4 HL Hk F1 F2 Hfuel HN.
  destruct (C116_cut_refuted fuel rt files op sys tfile k d sys_pages t db tb ss pages contents Hk4 HL Hk F1 F2 Hfuel) as [lines [E H]]. exists lines. split; [exact E|].
  replace (map snd (List.concat contents)) with (List.concat (map before_far contents)); [exact H|]. clear - HN.
  induction HN as [|c cs Hc _ IH]; [reflexivity|]. cbn [map List.concat]. rewrite map_app, IH. f_equal. now apply before_all.
Qed.
Print Assumptions C116_whole_partial.

(** Pages of 32768 bytes: a dictionary, and a leaf with two records in its
    first half and one in its second. *)
Definition zeros : list Z := repeat 0 (Z.to_nat 16384).
Definition sys_32k : list (list Z) := map (fun p => p ++ zeros) pages3.
Definition row_t3 : row := fun n => if list_eq_dec Z.eq_dec n (txt "id") then SStr (txt "3") else SStr (txt "far").
Definition stored_t3 : list stored := [FBytes (store_int 4 3); FBytes (be 6 300); FBytes (be 7 7); FBytes (txt "far")].
Definition lays_t : list layout := map slot_layout (key_slots [c_id] [c_v]).
Definition half1 : list Z := page_front true 3 0 17855 40 132 ++ low (crec lays_t stored_t1) ++ be 2 26 ++ high (crec lays_t stored_t1)
  ++ low (crec lays_t stored_t2) ++ be 2 19842 ++ high (crec lays_t stored_t2) ++ repeat 0 (Z.to_nat 16209).
Definition half2 : list Z := repeat 0 (Z.to_nat 3609) ++ low (crec lays_t stored_t3) ++ be 2 45648 ++ high (crec lays_t stored_t3) ++ repeat 0 (Z.to_nat 12748).
Definition page_32k : list Z := half1 ++ half2.
Lemma single {A} (a : A) i j p q : nth_error [a] i = Some p -> nth_error [a] j = Some q -> i = j.
Proof. intros Hi Hj. destruct i as [|[|i]]; destruct j as [|[|j]]; cbn in Hi, Hj; try discriminate; reflexivity. Qed.
Lemma zero_bytes n : Forall (fun b => 0 <= b < 256) (repeat 0 n).
Proof. apply Forall_forall. intros x Hx. apply repeat_spec in Hx. lia. Qed.
Lemma half1_length : zlen half1 = 16384.
Proof. unfold half1, zlen. rewrite !app_length, repeat_length. change (List.length (page_front true 3 0 17855 40 132)) with 125%nat. cbn [crec low high]. vm_compute (List.length _). lia. Qed.
Lemma half2_length : zlen half2 = 16384.
Proof. unfold half2, zlen. rewrite !app_length, !repeat_length. vm_compute (List.length (low _)). vm_compute (List.length (be _ _)). vm_compute (List.length (high _)). lia. Qed.
Lemma whole_32k : large_image 2 page_32k.
Proof.
  split; [unfold page_32k, zlen; rewrite app_length; pose proof half1_length; pose proof half2_length; unfold zlen in *; lia|].
  assert (S : forall l, forallb (fun b => (0 <=? b) && (b <? 256)) l = true -> Forall (fun b => 0 <= b < 256) l) by (intros l H; apply Forall_forall; intros x Hx; rewrite forallb_forall in H; specialize (H x Hx); lia).
  unfold page_32k, half1, half2. repeat first [apply zero_bytes | apply be_bytes | apply Forall_app; split | apply S; reflexivity].
Qed.
Lemma cut_two (a b : list Z) : zlen a = 16384 -> zlen b = 16384 -> cut_page 2 (a ++ b) = [a; b].
Proof.
  intros L1 L2. unfold zlen in *. cbn [cut_page]. assert (E1 : Z.to_nat 16384 = List.length a) by lia. assert (E2 : Z.to_nat 16384 = List.length b) by lia. generalize dependent (Z.to_nat 16384). intros n -> E2.
  rewrite firstn_app, skipn_app, firstn_all, skipn_all, Nat.sub_diag. cbn [firstn skipn app]. rewrite app_nil_r, E2, firstn_all. reflexivity.
Qed.
Lemma halves : cut_page 2 page_32k = [half1; half2].
Proof. exact (cut_two half1 half2 half1_length half2_length). Qed.
Lemma first_32k : first_block page_32k = half1.
Proof. pose proof halves as H. cbn [cut_page] in H. apply cons_same in H as [H _]. exact H. Qed.
Lemma field_32k p n : 0 <= p -> p + Z.of_nat n <= 16384 -> field page_32k p n = field half1 p n.
Proof. intros H0 H1. rewrite <- first_32k. symmetry. apply (first_field 2); [lia|exact whole_32k|exact H0|exact H1]. Qed.
Lemma leaf_32k : large_leaf false page_32k = true /\ page_number page_32k = 3.
Proof. unfold large_leaf, page_number. rewrite !field_32k by lia. split; vm_compute; reflexivity. Qed.
Lemma holds_32k rt : large_holds rt false 2 (key_slots [c_id] [c_v]) page_32k
  [(132, values [c_id; c_v] row_t1); (158, values [c_id; c_v] row_t2); (20000, values [c_id; c_v] row_t3)].
Proof.
  exists true. split; [unfold page_32k; rewrite app_nth1 by (pose proof half1_length as L; unfold zlen in L; lia); vm_compute; discriminate|]. split.
  - cbn [map fst]. constructor; [unfold linked; rewrite field_32k by (cbn; lia); reflexivity|].
    constructor; [unfold linked; rewrite field_32k by (cbn; lia); reflexivity|]. constructor; [unfold linked; rewrite field_32k by (cbn; lia); reflexivity|]. constructor.
    unfold linked. change (20000 - 2) with 19998.
    assert (E : page_32k = (half1 ++ repeat 0 (Z.to_nat 3609) ++ low (crec lays_t stored_t3)) ++ be 2 45648 ++ (high (crec lays_t stored_t3) ++ repeat 0 (Z.to_nat 12748))) by (unfold page_32k, half2; rewrite <- !app_assoc; reflexivity).
    assert (L : zlen (half1 ++ repeat 0 (Z.to_nat 3609) ++ low (crec lays_t stored_t3)) = 19998).
    { pose proof half1_length as L. unfold zlen in *. rewrite !app_length, repeat_length. vm_compute (List.length (low _)). lia. }
    rewrite E, <- L. rewrite field_there by lia. reflexivity.
  - constructor; [|constructor; [|constructor; [|constructor]]]; cbn [fst snd]; (split; [lia|]).
    + exists stored_t1. split; [|split; [|split; [vm_compute; discriminate|left; vm_compute; split; discriminate]]].
      * exists (page_front true 3 0 17855 40 132), ([0; 0; 0] ++ be 2 26). eexists. split; [unfold page_32k, half1; rewrite <- !app_assoc; reflexivity|]. split; [vm_compute; discriminate|]. split; [reflexivity|]. split; [reflexivity|]. repeat constructor.
      * change (row_encodes rt [User c_id; Own 6; Own 7; User c_v] [SStr (txt "1"); SStr (txt "abc")] stored_t1). unfold stored_t1. constructor; [|plain_text|].
        -- apply enc_int; try reflexivity; try (cbn; lia). number.
        -- constructor; [reflexivity|]. constructor; [reflexivity|]. constructor; [|plain_text|constructor]. apply enc_varchar; reflexivity || (intros _; reflexivity).
    + exists stored_t2. split; [|split; [|split; [vm_compute; discriminate|left; vm_compute; split; discriminate]]].
      * exists (page_front true 3 0 17855 40 132 ++ low (crec lays_t stored_t1) ++ be 2 26 ++ high (crec lays_t stored_t1)), ([0; 0; 0] ++ be 2 19842). eexists.
        split; [unfold page_32k, half1; rewrite <- !app_assoc; reflexivity|]. split; [vm_compute; discriminate|]. split; [reflexivity|]. split; [reflexivity|]. repeat constructor.
      * change (row_encodes rt [User c_id; Own 6; Own 7; User c_v] [SStr (txt "-2"); SNull] stored_t2). unfold stored_t2. constructor; [|plain_text|].
        -- apply enc_int; try reflexivity; try (cbn; lia). number.
        -- constructor; [reflexivity|]. constructor; [reflexivity|]. constructor; [|exact I|constructor]. apply enc_null; [reflexivity|discriminate].
    + exists stored_t3. split; [|split; [|split; [vm_compute; discriminate|right; lia]]].
      * exists (half1 ++ repeat 0 (Z.to_nat 3609)), ([0; 0; 0] ++ be 2 45648). eexists. split; [unfold page_32k, half2; rewrite <- !app_assoc; reflexivity|].
        pose proof half1_length as L. unfold zlen in *. rewrite !app_length, repeat_length. split; [lia|]. split; [reflexivity|]. split; [vm_compute (List.length (lengths _ _)); vm_compute (nullable_count _); lia|]. repeat constructor.
      * change (row_encodes rt [User c_id; Own 6; Own 7; User c_v] [SStr (txt "3"); SStr (txt "far")] stored_t3). unfold stored_t3. constructor; [|plain_text|].
        -- apply enc_int; try reflexivity; try (cbn; lia). number.
        -- constructor; [reflexivity|]. constructor; [reflexivity|]. constructor; [|plain_text|constructor]. apply enc_varchar; reflexivity || (intros _; reflexivity).
Qed.
Lemma blocks_32k (ps : list (list Z)) : Forall page_image ps -> blocks_of 2 (map (fun p => p ++ zeros) ps) = flat_map (fun p => [p; zeros]) ps.
Proof.
  induction 1 as [|p ps [Hp _] _ IH]; [reflexivity|]. unfold blocks_of in *. cbn [map flat_map]. rewrite IH. f_equal. apply cut_two; [exact Hp|]. unfold zeros, zlen. rewrite repeat_length. lia.
Qed.
Lemma sys_32k_stores : stores_dictionary (blocks_of 2 sys_32k) dict3.
Proof.
  destruct pages3_facts as [p1 [p2 [p3 [p4 [E [Hi [Hn [Hx _]]]]]]]]. destruct pages3_stores as [_ [r1 [r2 [r3 [r4 [HR [T1 [T2 [T3 T4]]]]]]]]].
  assert (Z0 : page_number zeros = 0) by (vm_compute; reflexivity). assert (Z1 : index_of zeros = 0) by (vm_compute; reflexivity).
  unfold sys_32k. rewrite (blocks_32k pages3 Hi).
  assert (Ef : firsts pages3 = pages3) by (apply distinct_firsts; rewrite Hn; repeat constructor; cbn; lia).
  assert (Eg : firsts (flat_map (fun p => [p; zeros]) pages3) = hd [] pages3 :: zeros :: tl pages3).
  { rewrite E in Hn |- *. cbn [map] in Hn. injection Hn as N1 N2 N3 N4. cbn [flat_map app hd tl]. set (s := sys_page 8 10 11 12). assert (N0 : page_number s = 7) by reflexivity. clearbody s. generalize dependent zeros. intros z Z0 Z1.
    unfold firsts. cbn [rev app firsts_rev existsb]. rewrite N0, N1, N2, N3, N4, Z0. reflexivity. }
  assert (HF : forall k, In k [1; 2; 3; 4] -> filter (fun p => index_of p =? k) (firsts (flat_map (fun p => [p; zeros]) pages3)) = filter (fun p => index_of p =? k) (firsts pages3)).
  { intros k Hk. rewrite Eg, Ef, E. cbn [hd tl]. set (s := sys_page 8 10 11 12). cbn [filter]. rewrite Z1. replace (0 =? k) with false; [reflexivity|]. destruct Hk as [<-|[<-|[<-|[<-|[]]]]]; reflexivity. }
  assert (HRo : roots (firsts (flat_map (fun p => [p; zeros]) pages3)) = [r1; r2; r3; r4]) by (rewrite <- HR, Eg, Ef, E; reflexivity).
  split.
  - assert (HZ : page_image zeros) by (split; [unfold zeros, zlen; rewrite repeat_length; lia|apply zero_bytes]). clear - Hi HZ. induction Hi; cbn [flat_map app]; [constructor|]. constructor; [assumption|]. constructor; [exact HZ|assumption].
  - exists r1, r2, r3, r4. split; [exact HRo|]. unfold stored_tree in *. rewrite !HF by (cbn; tauto). auto.
Qed.
Example C116_case : forall rt, large_input rt (is_deleted (txt "PrintData")) 2 dict3 sys_32k (mkTableDef (txt "test/t") 21 5) (txt "test") (txt "t") (key_slots [c_id] [c_v])
    [page_32k] [[(132, row_t1); (158, row_t2); (20000, row_t3)]]
  /\ front_key dict3 21 /\ Exists (Exists (fun r : Z * row => 16378 <= fst r)) [[(132, row_t1); (158, row_t2); (20000, row_t3)]].
Proof.
  intro rt. destruct (C82_case rt) as [[_ [H1 [H2 [H3 [H4 [H5 [H6 [H7 [H8 [H9 [H10 _]]]]]]]]]]] HK]. split; [|split; [exact HK|]].
  - split; [exact sys_32k_stores|]. repeat (split; [assumption|]). change (is_deleted (txt "PrintData")) with false. split; [constructor; [exact whole_32k|constructor]|].
    destruct leaf_32k as [L1 L2]. split; [cbn [filter]; rewrite L1; constructor; [exact (holds_32k rt)|constructor]|]. split.
    + intros i j p q Hi Hj _ _. exact (single _ i j p q Hi Hj).
    + constructor; [|constructor]. rewrite halves. cbn [tl]. constructor; [|constructor]. split; [vm_compute; reflexivity|]. intros l [<-|[]] _. rewrite L2. vm_compute. discriminate.
  - constructor. do 2 apply Exists_cons_tl. apply Exists_cons_hd. cbn [fst]. lia.
Qed.
(** A page all of whose records lie in its first half. *)
Lemma stored_more compact page more off ls fs : stored_at compact page off ls fs -> stored_at compact (page ++ more) off ls fs.
Proof.
  destruct compact; cbn [stored_at].
  - intros [pre [header [post [-> H]]]]. exists pre, header, (post ++ more). split; [now rewrite <- !app_assoc|exact H].
  - intros [wide [vs [E [[pre [header [post [-> H]]]] HR]]]]. exists wide, vs. split; [exact E|]. split; [|exact HR]. exists pre, header, (post ++ more). split; [now rewrite <- !app_assoc|exact H].
Qed.
Lemma chain_more compact page more : page_image page -> forall offs a z, 2 <= a <= 16384 -> Forall user_origin offs -> chain compact page a offs z -> chain compact (page ++ more) a offs z.
Proof.
  intros [HL _]. induction offs as [|o offs IH]; intros a z Ha Hu HC; inversion HC; subst.
  - constructor. unfold linked in *. rewrite field_first by lia. assumption.
  - inversion Hu as [|? ? Ho Hu']; subst. constructor; [unfold linked in *; rewrite field_first by lia; assumption|]. apply IH; [unfold user_origin in Ho; lia|exact Hu'|assumption].
Qed.
Lemma holds_more rt ss page rows : page_image page -> page_holds rt false ss page rows -> exists records, map snd records = rows /\ Forall (fun r => fst r < 16378) records
  /\ large_holds rt false 2 ss (page ++ zeros) records.
Proof.
  intros HI [compact [offs [HF [HC HR]]]]. exists (combine offs rows). pose proof (forall2_length _ _ _ HR) as EL.
  assert (E1 : map fst (combine offs rows) = offs) by (clear - EL; revert rows EL; induction offs; intros [|r rows] EL; try discriminate; [reflexivity|]; cbn [combine map fst]; f_equal; apply IHoffs; now injection EL).
  assert (E2 : map snd (combine offs rows) = rows) by (clear - EL; revert rows EL; induction offs; intros [|r rows] EL; try discriminate; [reflexivity|]; cbn [combine map snd]; f_equal; apply IHoffs; now injection EL).
  assert (HU : Forall user_origin offs) by (clear - HR; induction HR as [|o vs os vss [H _] _ IH]; constructor; assumption).
  split; [exact E2|]. split.
  - clear - HU E1. rewrite <- E1 in HU. apply Forall_forall. intros r Hr. rewrite Forall_forall in HU. specialize (HU (fst r) (in_map fst _ _ Hr)). unfold user_origin in HU. lia.
  - exists compact. split; [|split].
    + pose proof HI as [HL _]. unfold zlen in HL. rewrite app_nth1 by lia. destruct compact; apply HF.
    + rewrite E1. apply chain_more; [exact HI|destruct compact; cbn; lia|exact HU|exact HC].
    + clear - HR. induction HR as [|o vs os vss [Hu [fs [H1 [H2 H3]]]] _ IH]; [constructor|]. cbn [combine]. constructor; [|exact IH]. cbn [fst snd]. unfold user_origin in Hu. split; [lia|].
      exists fs. split; [now apply stored_more|]. split; [exact H3|]. split; [lia|]. left. lia.
Qed.
Example C116_whole_case : forall rt, exists content, large_input rt (is_deleted (txt "PrintData")) 2 dict3 sys_32k (mkTableDef (txt "test/t") 21 5) (txt "test") (txt "t") (key_slots [c_id] [c_v])
    [page_t ++ zeros] [content] /\ map snd content = [row_t1; row_t2] /\ Forall (fun r : Z * row => fst r < 16378) content.
Proof.
  intro rt. destruct (C82_case rt) as [[_ [H1 [H2 [H3 [H4 [H5 [H6 [H7 [H8 [H9 [H10 HF]]]]]]]]]]] HK]. change (is_deleted (txt "PrintData")) with false in *.
  destruct HF as [HI [cs [HC EC]]]. inversion HI as [|? ? HP _]; subst. change (firsts [page_t]) with [page_t] in HC. cbn [filter] in HC.
  assert (HE : eligible false page_t = true) by (vm_compute; reflexivity). rewrite HE in HC. inversion HC as [|? c ? l HH HN]; subst. inversion HN; subst. cbn [List.concat] in EC. rewrite app_nil_r in EC. subst c.
  destruct (holds_more rt _ page_t _ HP HH) as [records [E1 [E2 E3]]].
  assert (HL : large_image 2 (page_t ++ zeros)).
  { destruct HP as [HP HB]. split; [unfold zlen, zeros in *; rewrite app_length, repeat_length; lia|]. apply Forall_app. split; [exact HB|apply zero_bytes]. }
  assert (EF : forall p n, 0 <= p -> p + Z.of_nat n <= 16384 -> field (page_t ++ zeros) p n = field page_t p n) by (intros p n A B; apply field_first; [exact A|]; destruct HP as [HP _]; rewrite HP; exact B).
  exists (combine (map fst records) [row_t1; row_t2]). cbn [map] in E1. destruct records as [|[o1 v1] [|[o2 v2] [|r rs]]]; try discriminate E1. cbn [map fst snd combine] in *. injection E1 as Ev1 Ev2.
  inversion E2 as [|? ? B1 E2']; subst. inversion E2' as [|? ? B2 _]; subst. cbn [fst] in B1, B2.
  split; [|split; [reflexivity|repeat (constructor; [cbn [fst]; assumption|]); constructor]].
  split; [exact sys_32k_stores|]. repeat (split; [assumption|]). split; [constructor; [exact HL|constructor]|].
  assert (HLf : large_leaf false (page_t ++ zeros) = true) by (unfold large_leaf; rewrite !EF by lia; vm_compute; reflexivity).
  split; [cbn [filter]; rewrite HLf; constructor; [exact E3|constructor]|]. split.
  - intros i j p q Hi Hj _ _. exact (single _ i j p q Hi Hj).
  - constructor; [|constructor]. rewrite cut_two; [|destruct HP as [HP _]; exact HP|unfold zeros, zlen; rewrite repeat_length; lia]. cbn [tl]. constructor; [|constructor]. split; [vm_compute; reflexivity|]. intros l [<-|[]] _.
    unfold page_number. rewrite EF by lia. vm_compute. discriminate.
Qed.

(** The redo command needs just the dictionary of such an instance: what C87
    says of it holds for larger pages as well. *)
Theorem C116_redo_partial : forall fuel rt files sys opt parts want_db want_tb spare k d sys_pages fs ws,
  redo_input rt (good_update d) d (blocks_of k sys_pages) want_db want_tb fs ws ->
  files sys = Some (map IoBytes (blocks_of k sys_pages)) -> parts_of opt parts -> map files parts = map (fun f => Some (log_events f)) fs ->
  (Z.to_nat 16384 < fuel)%nat ->
  exists lines, FromRedoFile fuel rt files sys opt want_db want_tb spare = (lines, Ok tt) /\ Forall2 restores ws lines.
Proof.
  intros fuel rt files sys opt parts want_db want_tb spare k d sys_pages fs ws HI F1 Hp F2 Hf.
  exact (C87_redo_partial fuel rt files sys opt parts want_db want_tb spare d (blocks_of k sys_pages) fs ws HI F1 Hp F2 Hf).
Qed.
Print Assumptions C116_redo_partial.
Example C116_redo_case rt : redo_input rt (good_update dict3) dict3 (blocks_of 2 sys_32k) [] (txt "t") [file_t (txt "abc")] [change_t (txt "abc")].
Proof. destruct (C87_case rt) as [[_ H] _]. split; [exact sys_32k_stores|exact H]. Qed.
