(** C113: generated columns that are computed, not stored. *)
From Coq Require Import String ZifyBool Permutation.
From Verif Require Import GoBase Utils Ibdata Cmd SpecInno SpecText SpecSql SpecRecord SpecRow SpecPage SpecDict SpecTool SpecCmd
  PBase PWire PValue PText PRec PPage PSql PFile PDict PMove PropDict PBuild PTool PropTool PropOrder PropPrefix PMake.
Local Open Scope string_scope.
Local Open Scope list_scope.
Local Open Scope Z_scope.
Ltac Zify.zify_post_hook ::= Z.div_mod_to_equations.

(** DATA_VIRTUAL: a virtual generated column is in the dictionary, behind the
    others, but in no record. *)
Definition virtual (c : column_def) : Prop := Z.testbit (cd_prtype c) 13 = true.
(** ... an INT of [k] bytes, nullable or not. *)
Definition virtual_int (v : column_def) (k : nat) : Prop :=
  virtual v /\ cd_mtype v = 6 /\ In (mysql_type v) [1; 2; 3; 8; 9] /\ is_unsigned v = false /\ cd_len v = Z.of_nat k /\ In k [1; 2; 3; 4; 8]%nat.
(** A page of COMPACT records of the slots [ss]: the values of each, and the [n]
    bytes that follow it. *)
Definition page_trails (rt : runtime) (deleted : bool) (ss : list slot) (n : nat) (page : list Z) (rows : list (list sqlval * list Z)) : Prop :=
  exists offs, compact_page page
    /\ (if deleted then free_chain true page offs /\ hd_error offs = Some (field page 44 2)
        else chain true page (infimum true) offs (supremum true))
    /\ Forall2 (fun off va => user_origin off /\ exists fs, compact_at page off (map slot_layout ss) fs
         /\ off + zlen (body fs) + Z.of_nat n <= 16384 - 8 /\ snd va = firstn n (skipn (Z.to_nat (off + zlen (body fs))) page) /\ row_encodes rt ss (fst va) fs) offs rows.
Definition file_trails (rt : runtime) (deleted : bool) (ss : list slot) (n : nat) (pages : list (list Z)) (rows : list (list sqlval * list Z)) : Prop :=
  Forall page_image pages /\ exists contents, Forall2 (page_trails rt deleted ss n) (filter (eligible deleted) (firsts pages)) contents /\ List.concat contents = rows.
(** The numbers that bytes make up, read as integers of the widths [ks]. *)
Inductive reads : list nat -> list Z -> list (list Z) -> Prop :=
| reads_none : reads [] [] []
| reads_int k z t ks b ts : - 2 ^ (8 * Z.of_nat k - 1) <= z < 2 ^ (8 * Z.of_nat k - 1) -> int_text z t -> reads ks b ts -> reads (k :: ks) (store_int k z ++ b) (t :: ts).
(** The NULL bits of the columns [ls'] fit in the bytes that those of [ls] take. *)
Definition same_bitmap (ls ls' : list layout) : Prop := (nullable_count ls' + 7) / 8 = (nullable_count ls + 7) / 8.
(** Both files, and the rows of a table with virtual columns [vs], integers of
    the widths [ks], behind the others; with each row the bytes behind its
    record. *)
Definition virtual_input (rt : runtime) (deleted : bool) (d : dictionary) (sys_pages : list (list Z)) (t : table_def) (db tb : list Z)
    (ss : list slot) (vs : list column_def) (ks : list nat) (pages : list (list Z)) (rows : list (row * list Z)) : Prop :=
  stores_dictionary sys_pages d /\ consistent d /\ NoDup (map td_name (dd_tables d))
  /\ In t (dd_tables d) /\ named_as (td_name t) db tb /\ db <> [] /\ ~ In 96 db /\ ~ In 96 tb
  /\ columns_of d (td_id t) <> [] /\ Forall (fun c => ordinary c /\ readable_column c) (columns_of d (td_id t))
  /\ (exists cols, columns_of d (td_id t) = cols ++ vs) /\ clustered_slots d (td_id t) (ss ++ map User vs)
  /\ Forall2 virtual_int vs ks /\ same_bitmap (map slot_layout ss) (map slot_layout (ss ++ map User vs))
  /\ file_trails rt deleted ss (list_sum ks) pages (map (fun ra => (values (users ss) (fst ra), snd ra)) rows).

Lemma flags_more ls fs l b : List.length ls = List.length fs -> flags_number (null_flags (ls ++ [l]) (fs ++ [FBytes b])) = flags_number (null_flags ls fs).
Proof.
  intro H. revert fs H. induction ls as [|x ls IH]; intros [|y fs] H; try discriminate; cbn [app null_flags]; [destruct (l_nullable l); reflexivity|]. specialize (IH fs (f_equal pred H)).
  destruct (l_nullable x); cbn [app flags_number]; now rewrite IH.
Qed.
Lemma stored_more page off ls l n fs : l = mkLayout (l_nullable l) (Some n) (l_big l) -> same_bitmap ls (ls ++ [l]) -> 0 <= n -> compact_at page off ls fs -> off + zlen (body fs) + n <= zlen page ->
  compact_at page off (ls ++ [l]) (fs ++ [FBytes (firstn (Z.to_nat n) (skipn (Z.to_nat (off + zlen (body fs))) page))]).
Proof.
  intros El Hbits Hn [pre [header [post [HP [H1 [H2 [H3 HF]]]]]]] Hlen. pose proof (forall2_length _ _ _ HF) as L.
  assert (H0 : 0 <= off) by (assert (0 <= (nullable_count ls + 7) / 8) by (unfold nullable_count, zlen; lia); unfold zlen in *; lia).
  assert (Hoff : skipn (Z.to_nat (off + zlen (body fs))) page = post).
  { rewrite HP. set (n0 := (nullable_count ls + 7) / 8) in *. assert (0 <= n0) by (unfold n0, nullable_count, zlen; lia).
    rewrite !app_assoc. match goal with |- skipn ?k (?a ++ post) = _ => replace k with (List.length a) end; [rewrite skipn_app, skipn_all, Nat.sub_diag; reflexivity|].
    change (@zlen) with (@len) in *. unfold len in *. rewrite !app_length, rev_length. pose proof (len_be (Z.to_nat n0) (flags_number (null_flags ls fs))) as X. unfold len in X. lia. }
  rewrite Hoff. set (b := firstn (Z.to_nat n) post). assert (Hb : zlen b = n).
  { assert (X : zlen page = Z.of_nat (Z.to_nat (off + zlen (body fs))) + zlen post).
    { rewrite <- (firstn_skipn (Z.to_nat (off + zlen (body fs))) page) at 1. rewrite Hoff. unfold zlen. rewrite app_length, firstn_length. rewrite Nat.min_l; [lia|]. unfold zlen in *. lia. }
    unfold b, zlen in *. rewrite firstn_length. lia. }
  assert (LB : length_bytes l (FBytes b) = []) by (rewrite El; reflexivity).
  unfold same_bitmap in Hbits. exists pre, header, (skipn (Z.to_nat n) post). rewrite lengths_app, (flags_more ls fs l b L), Hbits, LB, app_nil_r by assumption.
  split; [|split; [exact H1|split; [exact H2|split; [exact H3|]]]].
  - unfold body. rewrite flat_map_app. cbn [flat_map content]. rewrite app_nil_r, <- !app_assoc. unfold b. rewrite firstn_skipn. exact HP.
  - apply Forall2_app; [exact HF|]. constructor; [|constructor]. rewrite El. cbn. exact Hb.
Qed.
Lemma any_int k b : (0 < k)%nat -> List.length b = k -> Forall (fun x => 0 <= x < 256) b -> exists z, b = store_int k z /\ - 2 ^ (8 * Z.of_nat k - 1) <= z < 2 ^ (8 * Z.of_nat k - 1).
Proof.
  intros Hk L H. exists (be_val b - 2 ^ (8 * Z.of_nat k - 1)). split.
  - unfold store_int. replace (be_val b - 2 ^ (8 * Z.of_nat k - 1) + 2 ^ (8 * Z.of_nat k - 1)) with (be_val b) by lia. rewrite <- L. symmetry. now apply be_of_val.
  - pose proof (be_val_bound b H) as B. unfold len in B. rewrite L in B.
    assert (E : 256 ^ Z.of_nat k = 2 ^ (8 * Z.of_nat k - 1) * 2).
    { change 256 with (2 ^ 8). rewrite <- Z.pow_mul_r by lia. rewrite (Z.mul_comm (2 ^ (8 * Z.of_nat k - 1)) 2), <- Z.pow_succ_r by lia. f_equal. lia. }
    lia.
Qed.
Lemma count_more ls l : nullable_count ls <= nullable_count (ls ++ [l]) .
Proof. unfold nullable_count, zlen. rewrite filter_app, app_length. lia. Qed.
Lemma count_app ls ls' : nullable_count ls <= nullable_count (ls ++ ls').
Proof. unfold nullable_count, zlen. rewrite filter_app, app_length. lia. Qed.
Lemma bitmap_between ls l ls' : same_bitmap ls (ls ++ l :: ls') -> same_bitmap ls (ls ++ [l]) /\ same_bitmap (ls ++ [l]) ((ls ++ [l]) ++ ls').
Proof.
  unfold same_bitmap. rewrite <- app_assoc. cbn [app]. intro H. pose proof (count_more ls l) as A. pose proof (count_app (ls ++ [l]) ls') as B. rewrite <- app_assoc in B. cbn [app] in B.
  assert (D : forall x y, x <= y -> (x + 7) / 8 <= (y + 7) / 8) by (intros x y Hxy; apply Z.div_le_mono; lia). pose proof (D _ _ A). pose proof (D _ _ B). split; lia.
Qed.
Lemma encodes_more rt ss vs fs v k z t : virtual_int v k -> - 2 ^ (8 * Z.of_nat k - 1) <= z < 2 ^ (8 * Z.of_nat k - 1) -> int_text z t -> row_encodes rt ss vs fs ->
  row_encodes rt (ss ++ [User v]) (vs ++ [SStr t]) (fs ++ [FBytes (store_int k z)]).
Proof.
  intros [_ [T1 [T2 [T3 [T4 T5]]]]] Rz Ht R. induction R as [|n ss vs b fs E _ IH|c ss w vs f fs E P _ IH]; cbn [app].
  - constructor; [|split; [|split]|constructor].
    + apply (enc_int rt v k z); [exact T1| |exact T3|exact T4|exact T5|exact Rz|exact Ht]. revert T2. generalize (mysql_type v). cbn [In]. intro m. tauto.
    + apply (int_text_facts _ _ Ht).
    + apply (int_text_facts _ _ Ht).
    + apply (int_text_facts _ _ Ht).
  - now constructor.
  - now constructor.
Qed.
(** One virtual column: what follows the record is taken for it. *)
Lemma trails_step rt deleted ss v k n page rows : virtual_int v k -> same_bitmap (map slot_layout ss) (map slot_layout ss ++ [slot_layout (User v)]) ->
  page_trails rt deleted ss (k + n) page rows ->
  exists rows', page_trails rt deleted (ss ++ [User v]) n page rows'
    /\ Forall2 (fun va va' => exists z t, - 2 ^ (8 * Z.of_nat k - 1) <= z < 2 ^ (8 * Z.of_nat k - 1) /\ int_text z t /\ fst va' = fst va ++ [SStr t] /\ snd va = store_int k z ++ snd va') rows rows'.
Proof.
  intros Hv Hb [offs [Hc [Hch HR]]].
  assert (X : exists rows', Forall2 (fun off va => user_origin off /\ exists fs, compact_at page off (map slot_layout (ss ++ [User v])) fs
         /\ off + zlen (body fs) + Z.of_nat n <= 16384 - 8 /\ snd va = firstn n (skipn (Z.to_nat (off + zlen (body fs))) page) /\ row_encodes rt (ss ++ [User v]) (fst va) fs) offs rows'
    /\ Forall2 (fun va va' => exists z t, - 2 ^ (8 * Z.of_nat k - 1) <= z < 2 ^ (8 * Z.of_nat k - 1) /\ int_text z t /\ fst va' = fst va ++ [SStr t] /\ snd va = store_int k z ++ snd va') rows rows').
  { clear Hch. destruct Hc as [[PL PB] _]. induction HR as [|off va offs rows [U [fs [S [L [A R]]]]] _ [rows' [I1 I2]]]; [exists []; split; constructor|].
    assert (O : 120 <= off) by apply U. assert (Kp : (0 < k)%nat) by (destruct Hv as [_ [_ [_ [_ [_ Hk]]]]]; cbn [In] in Hk; lia).
    set (rest := skipn (Z.to_nat (off + zlen (body fs))) page) in *.
    assert (Lr : (k + n <= List.length rest)%nat) by (unfold rest; rewrite skipn_length; unfold zlen in *; lia).
    assert (Br : all_bytes rest) by (rewrite <- (firstn_skipn (Z.to_nat (off + zlen (body fs))) page) in PB; now apply Forall_app in PB).
    destruct (any_int k (firstn k rest)) as [z [Ez Rz]]; [exact Kp|rewrite firstn_length; lia|now apply all_bytes_firstn|].
    exists ((fst va ++ [SStr (fmt_d z)], firstn n (skipn k rest)) :: rows'). split.
    - constructor; [|exact I1]. split; [exact U|]. exists (fs ++ [FBytes (store_int k z)]). rewrite map_app. cbn [map fst snd].
      assert (EL : slot_layout (User v) = mkLayout (l_nullable (slot_layout (User v))) (Some (Z.of_nat k)) (l_big (slot_layout (User v)))).
      { destruct Hv as [_ [T1 [_ [_ [T4 _]]]]]. cbn [slot_layout]. unfold column_layout, inno_layout. rewrite T1, T4. reflexivity. }
      assert (Eb : body (fs ++ [FBytes (store_int k z)]) = body fs ++ store_int k z) by (unfold body; rewrite flat_map_app; cbn [flat_map content]; now rewrite app_nil_r).
      assert (Lz : zlen (store_int k z) = Z.of_nat k) by (rewrite <- Ez; unfold zlen; rewrite firstn_length; lia).
      split; [|split; [rewrite Eb; unfold zlen in *; rewrite app_length; lia|split; [|apply encodes_more; [exact Hv|exact Rz|apply fmt_d_spec|exact R]]]].
      + pose proof (stored_more page off _ _ (Z.of_nat k) fs EL Hb ltac:(lia) S ltac:(unfold zlen in *; lia)) as G. rewrite Nat2Z.id in G. fold rest in G. rewrite Ez in G. exact G.
      + rewrite Eb. unfold rest. f_equal. rewrite skipn_skipn. f_equal. unfold zlen in *. rewrite app_length. lia.
    - constructor; [|exact I2]. exists z, (fmt_d z). split; [exact Rz|]. split; [apply fmt_d_spec|]. split; [reflexivity|]. cbn [snd]. rewrite A, <- Ez. clearbody rest. clear. revert rest. induction k as [|k IH]; intro rest; [reflexivity|].
      destruct rest as [|x rest]; cbn [Nat.add firstn skipn app]; [now rewrite firstn_nil|]. f_equal. apply IH. }
  destruct X as [rows' [X1 X2]]. exists rows'. split; [|exact X2]. exists offs. auto.
Qed.
Lemma trails_holds rt deleted vs ks : Forall2 virtual_int vs ks -> forall ss page rows, same_bitmap (map slot_layout ss) (map slot_layout (ss ++ map User vs)) ->
  page_trails rt deleted ss (list_sum ks) page rows ->
  exists tss, Forall2 (fun va ts => reads ks (snd va) ts) rows tss /\ page_holds rt deleted (ss ++ map User vs) page (map (fun p => fst (fst p) ++ map SStr (snd p)) (combine rows tss)).
Proof.
  induction 1 as [|v k vs ks Hv HV IH]; intros ss page rows Hb HT.
  - destruct HT as [offs [Hc [Hch HR]]]. exists (map (fun _ => []) rows). split.
    + clear - HR. induction HR as [|off va offs rows [_ [fs [_ [_ [A _]]]]] _ IH]; cbn [map]; constructor; [|exact IH]. rewrite A. cbn [list_sum fold_right firstn]. constructor.
    + exists true, offs. split; [exact Hc|]. split; [exact Hch|]. cbn [map]. rewrite app_nil_r. clear - HR. induction HR as [|off va offs rows [U [fs [S [L [_ R]]]]] _ IH]; cbn [map combine]; constructor; [|exact IH].
      split; [exact U|]. exists fs. cbn [fst snd map]. rewrite app_nil_r. cbn [list_sum fold_right] in L. split; [exact S|]. split; [lia|exact R].
  - cbn [map] in Hb. rewrite map_app in Hb. cbn [map] in Hb. destruct (bitmap_between _ _ _ Hb) as [B1 B2]. change (list_sum (k :: ks)) with (k + list_sum ks)%nat in HT.
    destruct (trails_step rt deleted ss v k (list_sum ks) page rows Hv B1 HT) as [rows' [HT' HR]].
    destruct (IH (ss ++ [User v]) page rows') as [tss [I1 I2]]; [rewrite <- app_assoc; cbn [app]; rewrite !map_app; cbn [map]; rewrite <- app_assoc in B2; exact B2|exact HT'|].
    rewrite <- app_assoc in I2. cbn [app] in I2. clear - I1 I2 HR.
    assert (G : exists tss', Forall2 (fun va ts => reads (k :: ks) (snd va) ts) rows tss' /\ map (fun p => fst (fst p) ++ map SStr (snd p)) (combine rows tss') = map (fun p => fst (fst p) ++ map SStr (snd p)) (combine rows' tss)).
    { clear I2. revert tss I1. induction HR as [|va va' rows rows' [z [t [H1 [H2 [H3 H4]]]]] _ IHR]; intros tss I1; inversion I1 as [|? ts ? tss' J1 J2]; subst; [exists []; split; [constructor|reflexivity]|].
      destruct (IHR tss' J2) as [tss2 [G1 G2]]. exists ((t :: ts) :: tss2). split; [constructor; [rewrite H4; now constructor|exact G1]|]. cbn [combine map fst snd]. rewrite G2, H3, <- app_assoc. reflexivity. }
    destruct G as [tss' [G1 G2]]. exists tss'. split; [exact G1|]. cbn [map]. rewrite G2. exact I2.
Qed.
Lemma slots_distinct d id ss : consistent d -> clustered_slots d id ss -> NoDup (map cd_name (users ss)).
Proof.
  intros Hc [[_ ->]|[key [rest [HK ->]]]].
  - assert (E : users (no_key_slots (columns_of d id)) = columns_of d id) by (unfold no_key_slots; cbn [users flat_map app]; induction (columns_of d id) as [|c l IH]; [reflexivity|]; cbn [map flat_map app]; now rewrite IH).
    rewrite E. apply Hc.
  - rewrite users_keyed, map_app. destruct HK as [i [Hi [Hp [Hn [Hin ->]]]]]. destruct (in_indexes _ _ _ Hi) as [Hi' Ht]. pose proof Hc as [_ [_ [_ [_ [_ [Hd Hk]]]]]]. destruct (Hk i Hi' Hp) as [K1 _]. specialize (Hd id).
    rewrite <- Hn in K1. set (f := fun c => negb (existsb (fun k => if list_eq_dec Z.eq_dec (cd_name k) (cd_name c) then true else false) key)).
    assert (Hf : forall x, In x (map cd_name key) -> ~ In x (map cd_name (filter f (columns_of d id)))).
    { intros x H1 H2. apply in_map_iff in H1 as [k [<- H1]]. apply in_map_iff in H2 as [c [E H2]]. apply filter_In in H2 as [_ H2]. unfold f in H2. apply negb_true_iff, not_true_iff_false in H2. apply H2, existsb_exists.
      exists k. split; [exact H1|]. destruct (list_eq_dec Z.eq_dec (cd_name k) (cd_name c)); congruence. }
    assert (Hd' : NoDup (map cd_name (filter f (columns_of d id)))).
    { clear - Hd. induction (columns_of d id) as [|c l IH]; [constructor|]. cbn [map filter] in *. inversion Hd as [|? ? N H]; subst. destruct (f c); [|now apply IH]. cbn [map]. constructor; [|now apply IH].
      intro X. apply N. apply in_map_iff in X as [y [<- X]]. apply in_map. now apply filter_In in X. }
    clear - K1 Hf Hd'. induction (map cd_name key) as [|x l IH]; [exact Hd'|]. cbn [app]. inversion K1; subst. constructor; [|apply IH; [assumption|intros; apply Hf; now right]].
    intro X. apply in_app_or in X as [X|X]; [contradiction|]. exact (Hf x (or_introl eq_refl) X).
Qed.
Lemma users_more ss vs : users (ss ++ map User vs) = users ss ++ vs.
Proof. unfold users. rewrite flat_map_app. f_equal. induction vs as [|v vs IH]; [reflexivity|]. cbn [map flat_map app]. now rewrite IH. Qed.
Lemma nodup_front {A} (l m : list A) : NoDup (l ++ m) -> NoDup m /\ forall x, In x m -> ~ In x l.
Proof.
  induction l as [|y l IH]; intro H; [split; [exact H|intros x _ []]|]. cbn [app] in H. inversion H as [|? ? N H']; subst. destruct (IH H') as [A1 A2]. split; [exact A1|].
  intros x Hx [->|X]; [apply N, in_or_app; now right|exact (A2 x Hx X)].
Qed.
Fixpoint with_values (r : row) (vs : list column_def) (ts : list (list Z)) : row :=
  match vs, ts with v :: vs', t :: ts' => fun n => if list_eq_dec Z.eq_dec n (cd_name v) then SStr t else with_values r vs' ts' n | _, _ => r end.
Lemma with_others cs r vs : forall ts, (forall x, In x (map cd_name vs) -> ~ In x (map cd_name cs)) -> values cs (with_values r vs ts) = values cs r.
Proof.
  induction vs as [|v vs IH]; intros [|t ts] H; try reflexivity. rewrite <- (IH ts) by (intros x Hx; apply H; now right). unfold values. apply map_ext_in. intros c Hc. cbn [with_values].
  destruct (list_eq_dec Z.eq_dec (cd_name c) (cd_name v)) as [E|]; [|reflexivity]. exfalso. apply (H (cd_name v) (or_introl eq_refl)). rewrite <- E. now apply in_map.
Qed.
Lemma with_same r vs : forall ts, NoDup (map cd_name vs) -> List.length ts = List.length vs -> values vs (with_values r vs ts) = map SStr ts.
Proof.
  induction vs as [|v vs IH]; intros [|t ts] H L; try discriminate; [reflexivity|]. cbn [map] in H. inversion H as [|? ? N H']; subst. unfold values. cbn [map with_values].
  destruct (list_eq_dec Z.eq_dec (cd_name v) (cd_name v)); [|contradiction]. f_equal. rewrite <- (IH ts H' ltac:(now injection L)). unfold values. apply map_ext_in. intros c Hc.
  destruct (list_eq_dec Z.eq_dec (cd_name c) (cd_name v)) as [E|]; [|reflexivity]. exfalso. apply N. rewrite <- E. now apply in_map.
Qed.
Lemma with_all cs vs r ts : NoDup (map cd_name (cs ++ vs)) -> List.length ts = List.length vs -> values (cs ++ vs) (with_values r vs ts) = values cs r ++ map SStr ts.
Proof.
  intros H L. rewrite map_app in H. apply nodup_front in H as [H1 H2]. rewrite <- (with_same r vs ts H1 L). rewrite <- (with_others cs r vs ts H2). unfold values. apply map_app.
Qed.
Lemma reads_length ks b ts : reads ks b ts -> List.length ts = List.length ks.
Proof. induction 1; [reflexivity|]. cbn [List.length]. now f_equal. Qed.
(** For virtual columns the tool prints the numbers that the bytes behind the
    record make up. *)
Theorem C113_virtual_refuted : forall fuel rt files op sys tfile d sys_pages t db tb ss vs ks pages rows cols,
  virtual_input rt (is_deleted op) d sys_pages t db tb ss vs ks pages rows -> front_key d (td_id t) -> columns_of d (td_id t) = cols ++ vs ->
  files sys = Some (map IoBytes sys_pages) -> files tfile = Some (map IoBytes pages) -> (Z.to_nat 16384 < fuel)%nat ->
  exists lines, FromDataFile fuel rt files op sys tfile db tb = (lines, Ok tt)
    /\ Forall2 (fun ra line => exists ts, reads ks (snd ra) ts
         /\ read_replace line = Some (db, tb, values cols (fst ra) ++ map SStr ts)
         /\ (read_replace line = Some (db, tb, values (columns_of d (td_id t)) (fst ra)) <-> values vs (fst ra) = map SStr ts)) rows lines.
Proof.
  intros fuel rt files op sys tfile d sys_pages t db tb ss vs ks pages rows cols [Hs [Hc [Hnd [Ht [Hnm [Hdb [Hb1 [Hb2 [Hne [Hro [_ [Hss [HV [HB [Hi [contents [HC HE]]]]]]]]]]]]]]]]] Hfk Ecols F1 F2 Hfuel.
  assert (X : exists css tss, Forall2 (page_holds rt (is_deleted op) (ss ++ map User vs)) (filter (eligible (is_deleted op)) (firsts pages)) css
    /\ List.concat css = map (fun p => fst (fst p) ++ map SStr (snd p)) (combine (List.concat contents) tss)
    /\ Forall2 (fun va ts => reads ks (snd va) ts) (List.concat contents) tss).
  { clear - HC HV HB. induction HC as [|page rows ps rs H _ [css [ts [I1 [I2 I3]]]]]; [exists [], []; repeat split; constructor|].
    destruct (trails_holds rt (is_deleted op) vs ks HV ss page rows HB H) as [ts1 [A B]]. eexists (_ :: css), (ts1 ++ ts). split; [constructor; [exact B|exact I1]|]. cbn [List.concat].
    split; [|now apply Forall2_app]. rewrite I2. rewrite <- map_app. f_equal. clear - A. induction A; [reflexivity|]. cbn [combine app]. now f_equal. }
  destruct X as [css [tss [X1 [X2 X3]]]]. rewrite HE in X2, X3. pose proof (forall2_length _ _ _ HV) as LV.
  pose proof (slots_distinct d (td_id t) _ Hc Hss) as N1. rewrite users_more in N1.
  assert (N2 : NoDup (map cd_name (cols ++ vs))) by (pose proof Hc as [_ [_ [_ [_ [_ [N2 _]]]]]]; specialize (N2 (td_id t)); now rewrite Ecols in N2).
  set (rows' := map (fun p => with_values (fst (fst p)) vs (snd p)) (combine rows tss)).
  destruct (C82_statements_partial fuel rt files op sys tfile d sys_pages t db tb (ss ++ map User vs) pages rows') as [lines [E H]]; try assumption.
  - do 11 (split; [assumption|]). split; [exact Hi|]. exists css. split; [exact X1|]. rewrite X2, users_more. unfold rows'. rewrite map_map.
    clear - X3 N1 LV. revert tss X3. induction rows as [|ra rows IH]; intros tss H; inversion H as [|? ts ? tss' R H']; subst; [reflexivity|]. cbn [map combine fst snd]. f_equal; [|now apply IH].
    rewrite with_all; [reflexivity|exact N1|apply reads_length in R; congruence].
  - exists lines. split; [exact E|]. unfold rows' in H. clear - H X3 Ecols N2 LV. revert tss lines X3 H. induction rows as [|ra rows IH]; intros tss lines X H; inversion X as [|? ts ? tss' R X']; subst; cbn [combine map] in H; inversion H as [|? line ? lines' H1 H']; subst; constructor.
    + exists ts. split; [exact R|]. cbn [fst snd] in H1, R. rewrite Ecols, with_all in H1; [|exact N2|apply reads_length in R; congruence]. split; [exact H1|]. rewrite H1, Ecols. unfold values. rewrite map_app.
      split; [intro Y|intros ->; reflexivity]. assert (Y' : map (fun c => fst ra (cd_name c)) cols ++ map SStr ts = map (fun c => fst ra (cd_name c)) cols ++ map (fun c => fst ra (cd_name c)) vs) by congruence. apply app_inv_head in Y'. congruence.
    + now apply (IH tss').
Qed.
Print Assumptions C113_virtual_refuted.

(** g(id INT NOT NULL, s SMALLINT, v INT AS (id + 1) VIRTUAL NOT NULL, w SMALLINT
    AS (s + 1) VIRTUAL, primary key (id)): the row (7, NULL, 8, NULL), with 0, 0,
    0, 7, 128, 9 behind its record, is printed as (7, NULL, -2147483641, 9). *)
Definition g_id : column_def := mkColumnDef 34 0 (txt "id") 6 (256 + 3) 4.
Definition g_s : column_def := mkColumnDef 34 1 (txt "s") 6 2 2.
Definition g_v : column_def := mkColumnDef 34 65537 (txt "v") 6 (8192 + 256 + 3) 4.
Definition g_w : column_def := mkColumnDef 34 131073 (txt "w") 6 (8192 + 2) 2.
Definition dict_g : dictionary := single (txt "test") (txt "g") 34 (65536 + 2) 53 g_id [g_s; g_v; g_w].
Definition row_g : row := fun n => if list_eq_dec Z.eq_dec n (txt "id") then SStr (txt "7") else if list_eq_dec Z.eq_dec n (txt "v") then SStr (txt "8") else SNull.
Definition stored_g : list stored := [FBytes (store_int 4 7); FBytes (be 6 300); FBytes (be 7 5); FNull].
Definition slots_g : list slot := key_slots [g_id] [g_s].
Definition trail_g : list Z := [0; 0; 0; 7; 128; 9].
Definition page_g : list Z := built true 3 17855 53 [mkRec (low (crec (map slot_layout slots_g) stored_g)) (body stored_g ++ trail_g)].
Lemma forall2_one {A B} (P : A -> B -> Prop) l b : Forall2 P l [b] -> exists a, l = [a] /\ P a b.
Proof. intro H. inversion H as [|a ? l' ? H1 H2]; subst. inversion H2; subst. now exists a. Qed.
Lemma page_g_trails rt : file_trails rt false slots_g (list_sum [4; 2]%nat) [page_g] [(values (users slots_g) row_g, trail_g)].
Proof.
  set (rs := [mkRec (low (crec (map slot_layout slots_g) stored_g)) (body stored_g ++ trail_g)]).
  assert (Hf : Forall fine rs) by (apply fine_check; vm_compute; reflexivity).
  assert (Hl : zlen (blocks true 125 rs) <= 16000) by (vm_compute; discriminate).
  destruct (built_alone 3 53 _ Hf Hl) as [Hi He]; try lia. split; [exact Hi|]. change page_g with (built true 3 17855 53 rs). rewrite He.
  exists [[(values (users slots_g) row_g, trail_g)]]. split; [|reflexivity]. constructor; [|constructor].
  destruct (built_page true 3 17855 53 rs Hf Hl) as [P1 [_ [_ [_ [_ [_ [P2 P3]]]]]]]; try lia. exists (origins 125 rs). split; [exact P1|]. split; [exact P2|]. destruct P1 as [[PL _] _].
  revert PL P3. generalize (built true 3 17855 53 rs) as page. generalize (origins 125 rs) as os. intros os page PL P3. apply forall2_one in P3 as [o [-> HX]]. constructor; [|constructor].
  destruct HX as [pre [l [post [E1 [E2 [E3 E4]]]]]]. cbn [low high] in E1, E2. change (low (crec (map slot_layout slots_g) stored_g)) with [1; 0; 0; 0] in *.
  assert (EL : zlen page = zlen pre + 4 + 2 + 23 + zlen post) by (rewrite E1; change (@zlen) with (@len); rewrite !len_app, len_be; change (len [1; 0; 0; 0]) with 4; change (len (body stored_g)) with 17; change (len trail_g) with 6; lia).
  rewrite PL in EL. change (zlen [1; 0; 0; 0]) with 4 in E2. split; [unfold user_origin, zlen in *; lia|]. exists stored_g. change (zlen (body stored_g)) with 17.
  split; [|split; [change (Z.of_nat (list_sum [4; 2]%nat)) with 6; unfold zlen in *; lia|split]].
  - exists pre, ([0; 0; 0] ++ be 2 l), (trail_g ++ post). split; [rewrite E1; rewrite <- !app_assoc; reflexivity|]. split; [unfold zlen in *; lia|].
    split; [change (@zlen) with (@len); rewrite len_app, len_be; reflexivity|]. split; [rewrite E2; change (zlen (lengths (map slot_layout slots_g) stored_g)) with 0; change ((nullable_count (map slot_layout slots_g) + 7) / 8) with 1; unfold zlen; lia|].
    repeat (constructor; [vm_compute; reflexivity|]). constructor.
  - cbn [snd]. rewrite E1. replace (pre ++ [1; 0; 0; 0] ++ be 2 l ++ (body stored_g ++ trail_g) ++ post) with ((pre ++ [1; 0; 0; 0] ++ be 2 l ++ body stored_g) ++ trail_g ++ post) by (now rewrite <- !app_assoc).
    replace (Z.to_nat (o + 17)) with (List.length (pre ++ [1; 0; 0; 0] ++ be 2 l ++ body stored_g)); [rewrite skipn_app, skipn_all, Nat.sub_diag; reflexivity|].
    pose proof (len_be 2 l) as X. unfold len in X. unfold zlen in *. rewrite !app_length. change (List.length (body stored_g)) with 17%nat. cbn [List.length]. lia.
  - change (row_encodes rt [User g_id; Own 6; Own 7; User g_s] [SStr (txt "7"); SNull] stored_g). unfold stored_g. constructor; [apply enc_int; try reflexivity; try (cbn; lia); number|plain_text|]. constructor; [reflexivity|]. constructor; [reflexivity|].
    constructor; [apply enc_null; [reflexivity|discriminate]|exact I|constructor].
Qed.
Example C113_case : forall rt,
  virtual_input rt (is_deleted (txt "PrintData")) dict_g (dict_pages dict_g) (mkTableDef (txt "test/g") 34 (65536 + 2)) (txt "test") (txt "g") slots_g [g_v; g_w] [4; 2]%nat [page_g] [(row_g, trail_g)]
  /\ front_key dict_g 34 /\ reads [4; 2]%nat trail_g [txt "-2147483641"; txt "9"].
Proof.
  intro rt. change (is_deleted (txt "PrintData")) with false.
  assert (Hok : single_ok (txt "test") (txt "g") 34 g_id [g_s; g_v; g_w]) by (split; [cbn; lia|]; split; [cbn; lia|]; split; [repeat constructor|distinct]).
  split; [|split; [now apply single_front|exact (reads_int 4 (-2147483641) _ _ _ _ ltac:(cbn; lia) (fmt_d_spec (-2147483641)) (reads_int 2 9 _ _ _ _ ltac:(cbn; lia) (fmt_d_spec 9) reads_none))]].
  split; [apply dict_built; vm_compute; reflexivity|]. split; [now apply single_consistent|]. split; [distinct|]. split; [now left|].
  split; [left; split; [reflexivity|split; cbn; lia]|]. split; [discriminate|]. split; [cbn; lia|]. split; [cbn; lia|].
  split; [discriminate|]. split; [change (columns_of dict_g (td_id (mkTableDef (txt "test/g") 34 (65536 + 2)))) with [g_id; g_s; g_v; g_w]; ordinary_columns|]. split; [exists [g_id; g_s]; reflexivity|].
  split; [right; exists [g_id], [g_s; g_v; g_w]; split; [now apply single_key|reflexivity]|]. split; [|split; [reflexivity|exact (page_g_trails rt)]].
  constructor; [|constructor; [|constructor]]; (split; [reflexivity|]; split; [reflexivity|]; split; [cbn; tauto|]; split; [reflexivity|]; split; [reflexivity|cbn; tauto]).
Qed.
