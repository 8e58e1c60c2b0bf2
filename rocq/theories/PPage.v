(** Lemmas about walking the records of a page. *)
From Coq Require Import ZifyBool Relations.
From Verif Require Import GoBase Utils Ibdata SpecInno SpecText SpecSql SpecRecord SpecRow SpecPage PBase PWire PValue PText PRec.
Local Open Scope list_scope.

(** * Reading fields *)
Lemma skipn_two {A} (d : list A) p : 0 <= p -> p + 2 <= len d ->
  exists x y t, skipn (Z.to_nat p) d = x :: y :: t.
Proof.
  intros H0 H. destruct (skipn (Z.to_nat p) d) as [|x [|y t]] eqn:E; [| |eauto];
    apply (f_equal (@len A)) in E; rewrite len_skipn in E by lia; cbn in E; lia.
Qed.
Lemma read2 d p : all_bytes d -> 0 <= p -> p + 2 <= len d ->
  (x <- slice_from d p ;; MatchReadFrom2 x) = Ok (field d p 2).
Proof.
  intros Hb H0 H. rewrite slice_from_ok by lia. cbn [bind]. unfold field.
  destruct (skipn_two d p H0 H) as [x [y [t E]]]. rewrite E.
  pose proof (all_bytes_skipn (Z.to_nat p) d Hb) as Hs. rewrite E in Hs. inversion Hs as [|? ? Hx Hs']; subst. inversion Hs' as [|? ? Hy _]; subst.
  unfold is_byte in *. rewrite mrf2_cons by assumption. cbn. first [reflexivity | f_equal; lia].
Qed.
Lemma field_bound d p k : all_bytes d -> 0 <= field d p k < 256 ^ Z.of_nat k.
Proof.
  intro H. unfold field. pose proof (be_val_bound (firstn k (skipn (Z.to_nat p) d))) as B.
  assert (Hb : all_bytes (firstn k (skipn (Z.to_nat p) d))) by now apply all_bytes_firstn, all_bytes_skipn.
  specialize (B Hb). split; [lia|]. apply Z.lt_le_trans with (1 := proj2 B). apply Z.pow_le_mono_r; [lia|].
  unfold len. rewrite firstn_length. lia.
Qed.

(** * Following a link *)
Lemma format_image compact page : in_format compact page -> page_image page.
Proof. destruct compact; intros [H _]; exact H. Qed.
Lemma format_flag compact page : in_format compact page -> PageIsCompact page = Ok (if compact then 32768 else 0).
Proof.
  intro H. destruct (PRec.page_format page (format_image _ _ H)) as [_ [E _]]. rewrite E.
  destruct compact; destruct H as [_ H]; [replace (128 <=? nth 42 page 0) with true by lia|replace (128 <=? nth 42 page 0) with false by lia]; reflexivity.
Qed.
Lemma next_linked compact page a b : in_format compact page -> 2 <= a <= 16384 -> linked compact page a b ->
  0 < b < 16384 -> b <> a -> next_offset page a = Ok (Some b).
Proof.
  intros Hf Ha Hl Hb Hne. pose proof (format_image _ _ Hf) as [Hlen Hbytes]. change (zlen page) with (len page) in Hlen.
  unfold next_offset. rewrite u64_id by lia.
  pose proof (read2 page (a - 2) Hbytes ltac:(lia) ltac:(lia)) as E.
  destruct (slice_from page (a - 2)) as [d| |]; cbn [bind] in *; try discriminate. rewrite E. cbn [bind].
  rewrite (format_flag compact page Hf). unfold linked in Hl. rewrite Hl.
  destruct compact; cbn [bind].
  - assert (Hnz : (b - a) mod 65536 <> 0).
    { intro E0. assert (Hd : b - a = 0); [|lia]. apply Z.mod_divide in E0; [|lia]. destruct E0 as [k Hk]. lia. }
    destruct (Z.eqb_spec ((b - a) mod 65536) 0); [contradiction|].
    change (negb (32768 =? 0)) with true. cbv iota. do 2 f_equal.
    destruct (Z.lt_ge_cases a b).
    + rewrite Z.mod_small by lia. rewrite Z.gtb_ltb. destruct (Z.ltb_spec 32768 (b - a)); [lia|]. rewrite u64_id by lia. lia.
    + replace ((b - a) mod 65536) with (b - a + 65536) by (symmetry; rewrite <- (Z.mod_add (b - a) 1 65536) by lia; apply Z.mod_small; lia).
      rewrite Z.gtb_ltb. destruct (Z.ltb_spec 32768 (b - a + 65536)); [|lia].
      replace (b - a + 65536 - 65536) with (b - a) by lia.
      unfold u64. rewrite Z.add_mod_idemp_r by lia. rewrite Z.mod_small by lia. lia.
  - destruct (Z.eqb_spec b 0); [lia|]. rewrite Z.gtb_ltb. destruct (Z.ltb_spec 32768 b); [lia|]. reflexivity.
Qed.
(** A link to a place behind the last record that is read: in either format the
    walk is led beyond it. *)
Lemma next_far compact page a z : in_format compact page -> 2 <= a < 16378 -> linked compact page a z -> 16378 <= z < 65536 ->
  exists q, next_offset page a = Ok (Some q) /\ 16378 <= q.
Proof.
  intros Hf Ha Hl Hz. pose proof (format_image _ _ Hf) as [Hlen Hbytes]. change (zlen page) with (len page) in Hlen.
  unfold next_offset. rewrite u64_id by lia.
  pose proof (read2 page (a - 2) Hbytes ltac:(lia) ltac:(lia)) as E.
  destruct (slice_from page (a - 2)) as [d| |]; cbn [bind] in *; try discriminate. rewrite E. cbn [bind].
  rewrite (format_flag compact page Hf). unfold linked in Hl. rewrite Hl.
  destruct compact; cbn [bind].
  - rewrite Z.mod_small by lia. destruct (Z.eqb_spec (z - a) 0); [lia|]. change (negb (32768 =? 0)) with true. cbv iota. eexists. split; [reflexivity|].
    rewrite Z.gtb_ltb. destruct (Z.ltb_spec 32768 (z - a)); [|rewrite u64_id by lia; lia].
    unfold u64. rewrite Z.add_mod_idemp_r by lia. rewrite <- (Z.mod_add _ 1) by lia. rewrite Z.mod_small by lia. lia.
  - destruct (Z.eqb_spec z 0); [lia|]. eexists. split; [reflexivity|]. rewrite Z.gtb_ltb. destruct (Z.ltb_spec 32768 z); [|lia].
    unfold u64. rewrite <- (Z.mod_add _ 1) by lia. rewrite Z.mod_small by lia. lia.
Qed.
Lemma next_end page a : page_image page -> 2 <= a <= 16384 -> field page (a - 2) 2 = 0 -> next_offset page a = Ok None.
Proof.
  intros [Hlen Hbytes] Ha H0. change (zlen page) with (len page) in Hlen. unfold next_offset. rewrite u64_id by lia.
  pose proof (read2 page (a - 2) Hbytes ltac:(lia) ltac:(lia)) as E.
  destruct (slice_from page (a - 2)) as [d| |]; cbn [bind] in *; try discriminate. rewrite E. cbn [bind]. now rewrite H0.
Qed.

(** * A chain never returns *)
Lemma linked_fun compact page a b b' : linked compact page a b -> linked compact page a b' ->
  0 <= b < 65536 -> 0 <= b' < 65536 -> b = b'.
Proof.
  unfold linked. destruct compact; [|congruence]. intros H H' Hb Hb'. rewrite H in H'.
  assert (E : (b - b') mod 65536 = 0).
  { replace (b - b') with ((b - a) - (b' - a)) by lia. rewrite Zminus_mod, H', Z.sub_diag. reflexivity. }
  apply Z.mod_divide in E; [|lia]. destruct E as [k Hk]. lia.
Qed.
Lemma chain_fun compact page z : 0 <= z < 120 \/ 16378 <= z < 65536 -> forall l a l', Forall user_origin l -> Forall user_origin l' ->
  chain compact page a l z -> chain compact page a l' z -> l = l'.
Proof.
  intro Hz. assert (Hu : forall l, Forall user_origin l -> forall o t, l = o :: t -> 120 <= o < 16378 /\ Forall user_origin t).
  { intros l H o t ->. inversion H as [|? ? Ho Ht]; subst. split; [unfold user_origin in Ho; lia|exact Ht]. }
  induction l as [|o l IH]; intros a l' H H' C C'.
  - destruct l' as [|o' l']; [reflexivity|exfalso]. destruct (Hu _ H' _ _ eq_refl) as [Ho _].
    inversion C as [? ? E|]; subst. inversion C' as [|? ? ? ? E' _]; subst.
    pose proof (linked_fun _ _ _ _ _ E E'). lia.
  - destruct (Hu _ H _ _ eq_refl) as [Ho Hl]. inversion C as [|? ? ? ? E C2]; subst.
    destruct l' as [|o' l'].
    + exfalso. inversion C' as [? ? E'|]; subst. pose proof (linked_fun _ _ _ _ _ E E'). lia.
    + destruct (Hu _ H' _ _ eq_refl) as [Ho' Hl']. inversion C' as [|? ? ? ? E' C2']; subst.
      assert (Eo : o = o') by (apply (linked_fun _ _ _ _ _ E E'); lia). subst o'. f_equal. now apply (IH o).
Qed.
Lemma chain_no_loop compact page z o offs : 0 <= z < 120 \/ 16378 <= z < 65536 -> Forall user_origin (o :: offs) ->
  chain compact page o (o :: offs) z -> False.
Proof.
  intros Hz Hu C. inversion C as [|? ? ? ? E C2]; subst. inversion Hu; subst.
  pose proof (chain_fun compact page z Hz (o :: offs) o offs Hu ltac:(assumption) C C2) as E2.
  apply (f_equal (@List.length Z)) in E2. cbn in E2. lia.
Qed.
Lemma free_fun compact page : forall l o l', Forall user_origin l -> Forall user_origin l' ->
  free_chain compact page (o :: l) -> free_chain compact page (o :: l') -> l = l'.
Proof.
  induction l as [|o l IH]; intros a l' H H' C C'.
  - inversion C as [? E|]; subst. inversion C' as [|? ? ? N]; subst; [reflexivity|contradiction].
  - inversion C as [|? ? ? N E C2]; subst. inversion C' as [? E0|? o' l2 N' E' C2']; subst; [contradiction|].
    inversion H as [|? ? Ho ?]; subst. inversion H' as [|? ? Ho' ?]; subst. unfold user_origin in Ho, Ho'.
    assert (Eo : o = o') by (apply (linked_fun _ _ _ _ _ E E'); lia). subst o'. f_equal. now apply (IH o).
Qed.
Lemma free_no_loop compact page o offs : Forall user_origin (o :: offs) -> free_chain compact page (o :: o :: offs) -> False.
Proof.
  intros Hu C. inversion C as [|? ? ? N E C2]; subst. inversion Hu; subst.
  pose proof (free_fun compact page (o :: offs) o offs Hu ltac:(assumption) C C2) as E2.
  apply (f_equal (@List.length Z)) in E2. cbn in E2. lia.
Qed.

(** * The walk, given that each record decodes *)
Inductive decoded (rt : runtime) (tm : gomap Table) (page : bytes) : list Column -> list Z -> list (list Column) -> list bytes -> list Column -> Prop :=
| dec_nil cols : decoded rt tm page cols [] [] [] cols
| dec_cons cols off offs row rows o lines cols' :
    parsePage_record rt tm page off cols = (o, Ok (Some row)) ->
    decoded rt tm page row offs rows lines cols' ->
    decoded rt tm page cols (off :: offs) (row :: rows) (o ++ lines) cols'.
Definition walked (o : list bytes) (r : list (list Column)) (c : list Column) : W (list (list Column) * list Column) := (o, Ok (r, c)).
Lemma stop_loop fuel rt tm page sup off cols : page_image page -> 16378 <= off \/ off = sup ->
  parsePage_loop (S fuel) rt tm page sup off cols = walked [] [] cols.
Proof.
  intros [Hlen Hbytes] H. change (zlen page) with (len page) in Hlen. cbn [parsePage_loop].
  replace ((off <? 16384 - 6) && negb (off =? sup)) with false by lia.
  pose proof (read2 page 62 Hbytes ltac:(lia) ltac:(lia)) as E. rewrite E. reflexivity.
Qed.
Lemma step_loop fuel rt tm page sup off cols o row : off < 16378 -> off <> sup ->
  parsePage_record rt tm page off cols = (o, Ok (Some row)) ->
  parsePage_loop (S fuel) rt tm page sup off cols
  = (_ <-w (o, Ok tt) ;; n <-w wlift (next_offset page off) ;;
     match n with None => wret ([row], row) | Some q => '(rows, c) <-w parsePage_loop fuel rt tm page sup q row ;; wret (row :: rows, c) end).
Proof.
  intros H1 H2 E. cbn [parsePage_loop]. replace ((off <? 16384 - 6) && negb (off =? sup)) with true by lia.
  rewrite E. cbn [wbind]. destruct (wbind _ _). reflexivity.
Qed.
(** where the walk stops: at the supremum, or beyond the last place where a record is looked for *)
Definition stops (compact : bool) (z : Z) : Prop := z = supremum compact \/ 16378 <= z < 65536.
(** from record [o], then along the chain *)
Lemma walk_chain rt tm page compact z : in_format compact page -> stops compact z -> forall offs o rows lines cols cols' fuel,
  chain compact page o offs z -> Forall user_origin (o :: offs) ->
  decoded rt tm page cols (o :: offs) rows lines cols' -> (List.length (o :: offs) < fuel)%nat ->
  parsePage_loop fuel rt tm page (supremum compact) o cols = walked lines rows cols'.
Proof.
  intros Hf Hz. pose proof (format_image _ _ Hf) as Hi. assert (Hsup : supremum compact < 120 /\ 0 < supremum compact) by (destruct compact; cbn; lia).
  induction offs as [|o2 offs IH]; intros o rows lines cols cols' fuel Hc Hu Hd Hfuel;
    destruct fuel as [|fuel]; cbn [List.length] in Hfuel; try lia;
    inversion Hu as [|? ? Ho Hu']; subst; unfold user_origin in Ho;
    inversion Hd as [|? ? ? row rows2 out lines2 ? Hr Hd']; subst;
    inversion Hc as [? ? Hl|? ? ? ? Hl Hc']; subst;
    rewrite (step_loop fuel rt tm page _ o cols out row) by (try assumption; lia).
  - assert (HX : exists q, next_offset page o = Ok (Some q) /\ (16378 <= q \/ q = supremum compact)).
    { destruct Hz as [->|Hz]; [exists (supremum compact); split; [apply (next_linked compact); try assumption; lia|now right]|].
      destruct (next_far compact page o z Hf ltac:(lia) Hl Hz) as [q [Q1 Q2]]. exists q. auto. }
    destruct HX as [q [-> Hq]]. rewrite wbind_lift. cbv iota.
    destruct fuel as [|fuel]; [lia|]. rewrite stop_loop by (try assumption; tauto).
    inversion Hd'; subst. reflexivity.
  - inversion Hu' as [|? ? Ho2 _]; subst. unfold user_origin in Ho2.
    assert (Hne : o2 <> o) by (intros ->; apply (chain_no_loop compact page z o offs); [destruct Hz; lia|assumption|assumption]).
    rewrite (next_linked compact page o o2) by (try assumption; lia). rewrite wbind_lift. cbv iota.
    rewrite (IH o2 rows2 lines2 row cols' fuel); try assumption; [unfold walked, wbind, wret; now rewrite app_nil_r|cbn [List.length]; lia].
Qed.
Lemma walk_free rt tm page compact : in_format compact page -> forall offs o rows lines cols cols' fuel,
  free_chain compact page (o :: offs) -> Forall user_origin (o :: offs) ->
  decoded rt tm page cols (o :: offs) rows lines cols' -> (List.length (o :: offs) < fuel)%nat ->
  parsePage_loop fuel rt tm page (supremum compact) o cols = walked lines rows cols'.
Proof.
  intros Hf. pose proof (format_image _ _ Hf) as Hi. assert (Hsup : supremum compact < 120 /\ 0 < supremum compact) by (destruct compact; cbn; lia).
  induction offs as [|o2 offs IH]; intros o rows lines cols cols' fuel Hc Hu Hd Hfuel;
    destruct fuel as [|fuel]; cbn [List.length] in Hfuel; try lia;
    inversion Hu as [|? ? Ho Hu']; subst; unfold user_origin in Ho;
    inversion Hd as [|? ? ? row rows2 out lines2 ? Hr Hd']; subst;
    inversion Hc as [? Hl|? ? ? Hnz Hl Hc']; subst;
    rewrite (step_loop fuel rt tm page _ o cols out row) by (try assumption; lia).
  - rewrite (next_end page o) by (try assumption; lia). rewrite wbind_lift. inversion Hd'; subst. reflexivity.
  - inversion Hu' as [|? ? Ho2 _]; subst. unfold user_origin in Ho2.
    assert (Hne : o2 <> o) by (intros ->; apply (free_no_loop compact page o offs); assumption).
    rewrite (next_linked compact page o o2) by (try assumption; lia). rewrite wbind_lift. cbv iota.
    rewrite (IH o2 rows2 lines2 row cols' fuel); try assumption; [unfold walked, wbind, wret; now rewrite app_nil_r|cbn [List.length]; lia].
Qed.

(** where the walk starts *)
Lemma parsePage_start fuel rt tm page cols compact rec free : in_format compact page ->
  parsePage fuel rt tm page cols rec free
  = parsePage_loop fuel rt tm page (supremum compact)
      (if rec then free else if compact then 99 + field page 97 2 else field page 99 2) cols.
Proof.
  intro Hf. pose proof (format_image _ _ Hf) as [Hlen Hbytes]. change (zlen page) with (len page) in Hlen.
  unfold parsePage. rewrite (format_flag compact page Hf), wbind_lift. destruct compact.
  - change (32768 =? 0) with false. cbv iota. change (38 + 36 + 2 * 10 + 5 - 2) with 97.
    rewrite (read2 page 97 Hbytes) by lia. rewrite wbind_lift. change (38 + 36 + 2 * 10 + 2 * 5 + 8) with 112. destruct rec; reflexivity.
  - change (0 =? 0) with true. cbv iota. change (38 + 36 + 2 * 10 + 1 + 6 - 2) with 99.
    rewrite (read2 page 99 Hbytes) by lia. rewrite wbind_lift. change (38 + 36 + 2 * 10 + 2 + 2 * 6 + 8) with 116. destruct rec; reflexivity.
Qed.
Lemma start_linked compact page b : 0 < b < 65536 -> b > infimum compact -> linked compact page (infimum compact) b ->
  (if compact then 99 + field page 97 2 else field page 99 2) = b.
Proof.
  intros Hb Hgt Hl. unfold linked in Hl. destruct compact; cbn [infimum] in *.
  - change (99 - 2) with 97 in Hl. rewrite Hl, Z.mod_small by lia. lia.
  - change (101 - 2) with 99 in Hl. exact Hl.
Qed.
Lemma page_walk rt tm page compact z offs rows lines cols cols' fuel free : in_format compact page -> stops compact z ->
  chain compact page (infimum compact) offs z -> Forall user_origin offs ->
  decoded rt tm page cols offs rows lines cols' -> (List.length offs < fuel)%nat ->
  parsePage fuel rt tm page cols false free = walked lines rows cols'.
Proof.
  intros Hf Hz Hc Hu Hd Hfuel. rewrite (parsePage_start fuel rt tm page cols compact) by exact Hf. cbv iota.
  inversion Hc as [? ? Hl|? o offs2 ? Hl Hc']; subst.
  - rewrite (start_linked compact page z) by (try exact Hl; destruct Hz; destruct compact; cbn in *; lia).
    destruct fuel as [|fuel]; [lia|]. rewrite stop_loop by (try exact (format_image _ _ Hf); destruct Hz; tauto || lia).
    inversion Hd; subst. reflexivity.
  - inversion Hu as [|? ? Ho _]; subst. unfold user_origin in Ho.
    rewrite (start_linked compact page o) by (try exact Hl; destruct compact; cbn; lia).
    now apply (walk_chain rt tm page compact z Hf Hz offs2).
Qed.
Lemma page_live rt tm page compact offs rows lines cols cols' fuel free : in_format compact page ->
  chain compact page (infimum compact) offs (supremum compact) -> Forall user_origin offs ->
  decoded rt tm page cols offs rows lines cols' -> (List.length offs < fuel)%nat ->
  parsePage fuel rt tm page cols false free = walked lines rows cols'.
Proof. intro Hf. exact (page_walk rt tm page compact _ offs rows lines cols cols' fuel free Hf (or_introl eq_refl)). Qed.
(** a free list that leads beyond that place *)
Lemma page_freed rt tm page compact z offs rows lines cols cols' fuel free : in_format compact page -> 16378 <= z < 65536 ->
  match offs with [] => z = free | o :: offs' => o = free /\ chain compact page o offs' z end -> Forall user_origin offs ->
  decoded rt tm page cols offs rows lines cols' -> (List.length offs < fuel)%nat ->
  parsePage fuel rt tm page cols true free = walked lines rows cols'.
Proof.
  intros Hf Hz Hc Hu Hd Hfuel. rewrite (parsePage_start fuel rt tm page cols compact) by exact Hf. cbv iota. destruct offs as [|o offs].
  - subst free. destruct fuel as [|fuel]; [lia|]. rewrite stop_loop by (try exact (format_image _ _ Hf); lia). inversion Hd; subst. reflexivity.
  - destruct Hc as [<- Hc]. now apply (walk_chain rt tm page compact z Hf (or_intror Hz) offs).
Qed.
Lemma page_free rt tm page compact o offs rows lines cols cols' fuel : in_format compact page ->
  free_chain compact page (o :: offs) -> Forall user_origin (o :: offs) ->
  decoded rt tm page cols (o :: offs) rows lines cols' -> (List.length (o :: offs) < fuel)%nat ->
  parsePage fuel rt tm page cols true o = walked lines rows cols'.
Proof.
  intros Hf Hc Hu Hd Hfuel. rewrite (parsePage_start fuel rt tm page cols compact) by exact Hf. cbv iota.
  now apply (walk_free rt tm page compact Hf offs).
Qed.

(** * The column descriptors between two rows *)
Definition hex_kind (c : Column) : Prop := (c_type c = 4 /\ c_mysql c = 15) \/ (c_type c = 3 /\ c_mysql c = 254).
Definition moved (c c' : Column) : Prop :=
  c_name c = c_name c' /\ c_type c = c_type c' /\ c_mysql c = c_mysql c' /\ c_pos c = c_pos c'
  /\ c_len c = c_len c' /\ c_null c = c_null c' /\ c_unsigned c = c_unsigned c' /\ c_table c = c_table c'
  /\ (c_binary c' = c_binary c \/ (hex_kind c /\ c_binary c' = true)).
Lemma moved_refl c : moved c c.
Proof. unfold moved. tauto. Qed.
Lemma moved_refls cols : Forall2 moved cols cols.
Proof. induction cols; constructor; [apply moved_refl|assumption]. Qed.
Lemma hex_parse rt c d n x u b b' : hex_kind c ->
  ParseData rt (c_type c) (c_mysql c) d n x u b = ParseData rt (c_type c) (c_mysql c) d n x u b'
  /\ forall o v r, ParseData rt (c_type c) (c_mysql c) d n x u b = (o, Ok (v, r)) -> r = true.
Proof.
  intros [[E1 E2]|[E1 E2]]; rewrite E1, E2; (split; [reflexivity|]); intros o v r; unfold ParseData; cbn;
    destruct (slice_to d n); cbn; intro H; inversion H; reflexivity.
Qed.
Lemma keep_parse rt c d n x u b o v r : ~ hex_kind c ->
  ParseData rt (c_type c) (c_mysql c) d n x u b = (o, Ok (v, r)) -> r = b.
Proof.
  intros Hk. unfold ParseData, wret, hex_kind, DATA_BINARY, DATA_FIXBINARY, MYSQL_TYPE_VARCHAR, MYSQL_TYPE_STRING in *.
  repeat lazymatch goal with
  | |- (if ?e then _ else _) = _ -> _ => destruct e eqn:?
  end; try (exfalso; apply Hk; lia);
  let H := fresh "H" in intro H;
  repeat match type of H with
  | context [bind ?m _] => destruct m; cbn [bind] in H
  end; try discriminate; try (now inversion H); try (inversion H; congruence).
Qed.
Lemma row_moved rt after cols ls fs r0 : row_of rt after cols ls fs r0 -> forall cols', Forall2 moved cols cols' ->
  exists r, row_of rt after cols' ls fs r /\ Forall2 as_decoded r0 r /\ Forall2 moved cols r.
Proof.
  induction 1 as [|c cs l ls fs r _ IH|c cs l ls f fs v bin r Hf HP _ IH]; intros cols' HM;
    inversion HM as [|? c' ? cs' Hm HM']; subst.
  - exists []. repeat split; constructor.
  - destruct (IH cs' HM') as [r' [R1 [R2 R3]]]. destruct Hm as (E1 & E2 & E3 & E4 & E5 & E6 & E7 & E8 & Hb).
    eexists. split; [apply row_null; exact R1|]. split; constructor; try assumption.
    + unfold as_decoded. cbn. destruct Hb as [Hb|[_ Hb]]; rewrite Hb, <- E1, <- E2, <- E3, <- E4, <- E5, <- E6, <- E7, <- E8; tauto.
    + unfold moved, hex_kind in *. cbn. tauto.
  - destruct (IH cs' HM') as [r' [R1 [R2 R3]]]. destruct Hm as (E1 & E2 & E3 & E4 & E5 & E6 & E7 & E8 & Hb).
    assert (HP' : ParseData rt (c_type c') (c_mysql c') (content f ++ body fs ++ after) (zlen (content f))
              (match l_fixed l with Some n => n | None => 0 end) (c_unsigned c') (c_binary c') = (remark c', Ok (v, bin))).
    { unfold remark in *. rewrite <- E2, <- E3, <- E7. destruct Hb as [Hb|[Hk _]]; [now rewrite Hb|].
      rewrite <- HP. symmetry. apply hex_parse. exact Hk. }
    eexists. split; [eapply row_val; [exact Hf|exact HP'|exact R1]|]. split; constructor; try assumption.
    + left. now rewrite <- E1, <- E2, <- E3, <- E4, <- E5, <- E6, <- E7, <- E8.
    + unfold moved. cbn. repeat (split; [assumption|]).
      assert (Hd : hex_kind c \/ ~ hex_kind c) by (unfold hex_kind; lia).
      destruct Hd as [Hk|Hk]; [right; split; [exact Hk|]; eapply (proj2 (hex_parse rt c _ _ _ _ _ (c_binary c) Hk)); exact HP|].
      left. eapply keep_parse; [exact Hk|exact HP].
Qed.

(** * Decoding the records of a page one after another *)
Lemma moved_describes cols cols' ls : Forall2 moved cols cols' -> Forall2 describes cols ls -> Forall2 describes cols' ls.
Proof.
  intro H. revert ls. induction H as [|c c' cs cs' Hm _ IH]; intros ls HD; inversion HD as [|? l ? ls' Hd HD']; subst; constructor; [|now apply IH].
  destruct Hm as (E1 & E2 & E3 & E4 & E5 & E6 & E7 & E8 & _). unfold describes in *. now rewrite <- E2, <- E5, <- E6.
Qed.
Lemma moved_known tm cols cols' ls : Forall2 moved cols cols' -> known tm cols ls -> known tm cols' ls.
Proof.
  intros H [c0 [table [H1 H2]]]. inversion H as [|? c' ? cs' Hm _]; subst; [discriminate|]. cbn in H1. injection H1 as ->.
  exists c', table. split; [reflexivity|]. destruct Hm as (_ & _ & _ & _ & _ & _ & _ & E & _). now rewrite <- E.
Qed.
Lemma record_any rt tm compact page off cols ls fs row : in_format compact page -> (compact = true -> known tm cols ls) ->
  Forall2 describes cols ls -> (3 <= List.length cols)%nat -> stored_at compact page off ls fs ->
  row_of rt (skipn (Z.to_nat (off + zlen (body fs))) page) cols ls fs row ->
  parsePage_record rt tm page off cols = (remarks cols fs, Ok (Some row)).
Proof.
  intros Hf Hk HD H3 Hs HR. destruct compact.
  - destruct (Hk eq_refl) as [c0 [table [H1 [H2 [H4 H5]]]]]. rewrite (record_compact rt tm page off cols ls fs table c0) by assumption.
    change (@zlen) with (@len) in HR. rewrite (row_of_values _ _ _ _ _ _ HR). now rewrite wbind_pure.
  - destruct Hs as [wide [vs [-> [Hr HF]]]]. rewrite (record_redundant rt tm page off wide cols ls (map RBytes vs)) by assumption.
    rewrite map_map. change (map (fun x => plain (RBytes x)) vs) with (map FBytes vs).
    replace (rbody (map RBytes vs)) with (body (map FBytes vs)).
    + change (@zlen) with (@len) in HR. rewrite (row_of_values _ _ _ _ _ _ HR). now rewrite wbind_pure.
    + clear. unfold body, rbody. induction vs as [|v vs IH]; [reflexivity|]. cbn. now rewrite IH.
Qed.
Lemma moved_remarks cols cols' : Forall2 moved cols cols' -> forall fs, remarks cols fs = remarks cols' fs.
Proof.
  induction 1 as [|c c' cs cs' Hm _ IH]; intro fs; [reflexivity|]. destruct Hm as (_ & E2 & E3 & _).
  assert (E : remark c = remark c') by (unfold remark; now rewrite E2, E3).
  destruct fs as [|[|b|b] fs]; cbn [remarks]; rewrite ?E, ?IH; reflexivity.
Qed.
Lemma rows_decoded rt tm compact page cols ls : in_format compact page -> (compact = true -> known tm cols ls) ->
  Forall2 describes cols ls -> (3 <= List.length cols)%nat -> forall offs rows0,
  forall lines, page_rows rt compact page cols ls offs rows0 lines -> forall cols', Forall2 moved cols cols' ->
  exists rows colsE, decoded rt tm page cols' offs rows lines colsE /\ Forall2 (Forall2 as_decoded) rows0 rows /\ Forall2 moved cols colsE.
Proof.
  intros Hf Hk HD H3 offs0 rows00 lines0. induction 1 as [|off offs fs row rows lines Ho Hs HR _ IH]; intros cols' HM.
  - exists [], cols'. repeat split; [constructor|constructor|exact HM].
  - destruct (row_moved _ _ _ _ _ _ HR cols' HM) as [r [R1 [R2 R3]]].
    destruct (IH r R3) as [rows' [colsE [D1 [D2 D3]]]]. exists (r :: rows'), colsE.
    split; [|split; [constructor; assumption|exact D3]].
    replace (remarks cols fs) with (remarks cols' fs) by (symmetry; now apply moved_remarks).
    apply dec_cons; [|exact D1]. apply (record_any rt tm compact page off cols' ls fs r); try assumption.
    + intro E. now apply (moved_known tm cols), Hk.
    + now apply (moved_describes cols).
    + now rewrite <- (forall2_length _ _ _ HM).
Qed.
Lemma rows_quiet rt compact page cols ls off offs fs row rows lines : user_origin off -> stored_at compact page off ls fs ->
  row_of rt (skipn (Z.to_nat (off + zlen (body fs))) page) cols ls fs row -> remarks cols fs = [] ->
  page_rows rt compact page cols ls offs rows lines -> page_rows rt compact page cols ls (off :: offs) (row :: rows) lines.
Proof. intros H1 H2 H3 H4 H5. change lines with ([] ++ lines). rewrite <- H4. now apply rows_cons with (fs := fs). Qed.
Lemma rows_origins rt compact page cols ls offs rows lines : page_rows rt compact page cols ls offs rows lines -> Forall user_origin offs.
Proof. induction 1; constructor; assumption. Qed.

(** * Whether and where a walk goes on does not depend on the values read *)
Definition shape {A B} (R : A -> B -> Prop) (m : W A) (m' : W B) : Prop :=
  match snd m, snd m' with
  | Ok a, Ok b => R a b
  | Panic, Panic | NoFuel, NoFuel => True
  | _, _ => False
  end.
Lemma shape_bind {A B C D} (R : A -> B -> Prop) (S : C -> D -> Prop) m m' (f : A -> W C) (g : B -> W D) :
  shape R m m' -> (forall a b, R a b -> shape S (f a) (g b)) -> shape S (wbind m f) (wbind m' g).
Proof.
  unfold shape. destruct m as [o [a| |]], m' as [o' [b| |]]; cbn; try tauto. intros H K. specialize (K a b H).
  destruct (f a), (g b). exact K.
Qed.
Lemma shape_refl {A} (m : W A) : shape eq m m.
Proof. unfold shape. destruct (snd m); auto. Qed.
Lemma moved_field rt o offsets i c c' : moved c c' ->
  shape (fun r r' => moved c r') (parseField rt o offsets i c) (parseField rt o offsets i c').
Proof.
  intro Hm. pose proof Hm as (E1 & E2 & E3 & E4 & E5 & E6 & E7 & E8 & Hb).
  unfold parseField. apply shape_bind with (R := eq); [apply shape_refl|]. intros [data n] ? <-.
  destruct (len data <? n).
  - destruct (n =? 4294967295); unfold shape; cbn; [|exact Hm]. unfold moved, hex_kind in *. cbn. tauto.
  - assert (EP : ParseData rt (c_type c') (c_mysql c') data n (i64 (col_fixed c')) (c_unsigned c') (c_binary c')
      = ParseData rt (c_type c) (c_mysql c) data n (i64 (col_fixed c)) (c_unsigned c) (c_binary c)).
    { unfold col_fixed. rewrite <- E2, <- E3, <- E5, <- E7. destruct Hb as [->|[Hk _]]; [reflexivity|]. apply hex_parse, Hk. }
    rewrite EP.
    destruct (ParseData rt (c_type c) (c_mysql c) data n (i64 (col_fixed c)) (c_unsigned c) (c_binary c)) as [out [[v bin]| |]] eqn:EQ; cbn; auto.
    unfold moved. cbn. repeat (split; [assumption|]).
    assert (Hd : hex_kind c \/ ~ hex_kind c) by (unfold hex_kind; lia).
    destruct Hd as [Hk|Hk]; [right; split; [exact Hk|]; eapply (proj2 (hex_parse rt c _ _ _ _ _ (c_binary c) Hk)); exact EQ|].
    left. eapply keep_parse; [exact Hk|exact EQ].
Qed.
Lemma moved_fields rt o offsets : forall cols cols', Forall2 moved cols cols' -> forall i,
  shape (fun r r' => Forall2 moved cols r') (parseFields rt o offsets i cols) (parseFields rt o offsets i cols').
Proof.
  induction 1 as [|c c' cs cs' Hm _ IH]; intro i; cbn [parseFields]; [unfold shape; cbn; constructor|].
  eapply shape_bind; [apply (moved_field rt o offsets i c c' Hm)|]. intros a b Hb. cbn beta in Hb.
  eapply shape_bind; [apply IH|]. intros a2 b2 Hb2. unfold shape. cbn. constructor; assumption.
Qed.
Lemma moved_check offsets : forall cols cols', Forall2 moved cols cols' -> forall i,
  checkFieldSize offsets i cols = checkFieldSize offsets i cols'.
Proof.
  induction 1 as [|c c' cs cs' Hm _ IH]; intro i; cbn [checkFieldSize]; [reflexivity|].
  destruct Hm as (E1 & E2 & E3 & E4 & E5 & E6 & E7 & E8 & Hb). unfold col_fixed in *. rewrite <- E2, <- E5, <- E6.
  destruct (negb _); [|apply IH]. destruct (RecOffsNthSize offsets i); cbn [bind]; try reflexivity.
  rewrite IH. reflexivity.
Qed.
Definition both_moved (cols : list Column) (a b : option (list Column)) : Prop :=
  match a, b with Some _, Some r => Forall2 moved cols r | None, None => True | _, _ => False end.
Lemma moved_record rt tm page off cols cols' : Forall2 moved cols cols' ->
  shape (both_moved cols) (parsePage_record rt tm page off cols) (parsePage_record rt tm page off cols').
Proof.
  intro HM. unfold parsePage_record. rewrite <- (forall2_length _ _ _ HM).
  apply shape_bind with (R := eq); [apply shape_refl|]. intros origin ? <-.
  apply shape_bind with (R := eq); [apply shape_refl|]. intros compact ? <-.
  apply shape_bind with (R := eq).
  { replace (c0 <- index cols' 0 ;; match mget tm (c_table c0) with
              | None => Ok None
              | Some table => os <- ibRecInitOffsetsNew page off (zeros (List.length cols * 2)) table ;; Ok (Some os)
              end)
      with (c0 <- index cols 0 ;; match mget tm (c_table c0) with
              | None => Ok None
              | Some table => os <- ibRecInitOffsetsNew page off (zeros (List.length cols * 2)) table ;; Ok (Some os)
              end); [apply shape_refl|].
    inversion HM as [|c c' cs cs' Hm _]; subst; [reflexivity|]. rewrite !index_0. cbn [bind].
    destruct Hm as (_ & _ & _ & _ & _ & _ & _ & E & _). now rewrite E. }
  intros [offsets|] ? <-; [|unfold shape; cbn; exact I].
  apply shape_bind with (R := eq); [rewrite (moved_check offsets cols cols' HM); apply shape_refl|].
  intros [|] ? <-; [|unfold shape; cbn; exact I].
  eapply shape_bind with (R := fun r r' => Forall2 moved cols r').
  - unfold parseRecords. eapply shape_bind; [apply moved_fields; exact HM|]. intros a b Hb. cbn beta in Hb.
    apply shape_bind with (R := eq); [apply shape_refl|]. intros x ? <-. unfold shape. cbn. exact Hb.
  - intros a b Hb. apply shape_bind with (R := eq); [apply shape_refl|]. intros x ? <-. unfold shape. cbn. exact Hb.
Qed.

(** * The walk as a sequence of places *)
Definition walk_step (rt : runtime) (tm : gomap Table) (page : bytes) (sup : Z) (cols : list Column) (off : Z) : option Z :=
  if (off <? 16384 - 6) && negb (off =? sup) then
    match snd (parsePage_record rt tm page off cols) with
    | Ok (Some _) => match next_offset page off with Ok (Some o) => Some o | _ => None end
    | _ => None
    end
  else None.
Fixpoint alive (step : Z -> option Z) (n : nat) (off : Z) : Prop :=
  match n with
  | O => True
  | S n' => match step off with Some o => alive step n' o | None => False end
  end.

(** * Decoding one record always ends *)
Definition nf {A} (m : res A) : Prop := m <> NoFuel.
Lemma nf_bind {A B} (m : res A) (k : A -> res B) : nf m -> (forall a, nf (k a)) -> nf (bind m k).
Proof. unfold nf. destruct m; cbn; auto. discriminate. Qed.
Lemma nf_wbind {A B} (m : W A) (k : A -> W B) : nf (snd m) -> (forall a, nf (snd (k a))) -> nf (snd (wbind m k)).
Proof. unfold nf. destruct m as [o [a| |]]; cbn; auto; [|discriminate]. intros _ H. specialize (H a). destruct (k a). exact H. Qed.
Ltac nf1 :=
  lazymatch goal with
  | |- nf (bind _ _) => apply nf_bind; [|intro]
  | |- nf (snd (wbind _ _)) => apply nf_wbind; [|intro]
  | |- nf (snd (wlift _)) => unfold wlift; cbn [snd]
  | |- nf (snd (wret _)) => unfold wret; cbn [snd]
  | |- nf (snd (_, _)) => cbn [snd]
  | |- nf (Ok _) => discriminate
  | |- nf Panic => discriminate
  | |- nf (snd (if ?b then _ else _)) => destruct b
  | |- nf (if ?b then _ else _) => destruct b
  | |- nf (snd (match ?x with _ => _ end)) => destruct x
  | |- nf (match ?x with _ => _ end) => destruct x
  | |- nf (let _ := _ in _) => cbv zeta
  | |- nf (snd (let _ := _ in _)) => cbv zeta
  end.
Ltac nfs := repeat nf1.
Lemma nf_slice_from {A} (d : list A) a : nf (slice_from d a). Proof. unfold slice_from. nfs. Qed.
Lemma nf_slice_to {A} (d : list A) a : nf (slice_to d a). Proof. unfold slice_to. nfs. Qed.
Lemma nf_slice {A} (d : list A) a b : nf (slice d a b). Proof. unfold slice. nfs. Qed.
Lemma nf_index {A} (d : list A) a : nf (index d a). Proof. unfold index. nfs. Qed.
Lemma nf_set_index {A} (d : list A) a v : nf (set_index d a v). Proof. unfold set_index. nfs. Qed.
Ltac nfb := repeat first [nf1 | apply nf_slice_from | apply nf_slice_to | apply nf_slice | apply nf_index | apply nf_set_index | assumption].
Lemma nf_mrf b : nf (MatchReadFrom1 b) /\ nf (MatchReadFrom2 b) /\ nf (MatchReadFrom3 b) /\ nf (MatchReadFrom4 b) /\ nf (MatchReadFrom8 b).
Proof. unfold MatchReadFrom8, MatchReadFrom1, MatchReadFrom2, MatchReadFrom3, MatchReadFrom4. repeat split; nfb. Qed.
Ltac nfm := repeat first [nf1 | apply nf_slice_from | apply nf_slice_to | apply nf_slice | apply nf_index | apply nf_set_index | apply nf_mrf | assumption].
Lemma nf_parse rt ty my d n x u b : nf (snd (ParseData rt ty my d n x u b)).
Proof.
  assert (H1 : forall x d, nf (GetUintValue x d)) by (intros; unfold GetUintValue; nfm).
  assert (H2 : forall x d, nf (GetIntValue x d)) by (intros; unfold GetIntValue; nfm).
  assert (H3 : forall d, nf (ParseTime d)) by (intros; unfold ParseTime; nfm).
  assert (H4 : forall d, nf (ParseDate d)) by (intros; unfold ParseDate; nfm).
  assert (H5 : forall d, nf (ParseTimeStamp rt d)) by (intros; unfold ParseTimeStamp; nfm).
  assert (H6 : forall d, nf (ParseDateTime d)) by (intros; unfold ParseDateTime, GetTimeFormat; nfm).
  assert (H7 : forall d, nf (ParseFloat d)) by (intros; unfold ParseFloat, le32; nfm).
  assert (H8 : forall d, nf (ParseDouble d)) by (intros; unfold ParseDouble, le64; nfm).
  unfold ParseData. nfm; auto; nfm.
Qed.
Lemma nf_record rt tm page off cols : nf (snd (parsePage_record rt tm page off cols)).
Proof.
  assert (H1 : forall n i d o offs, nf (offsetsOld1 n i d o offs)).
  { induction n; intros; cbn [offsetsOld1]; unfold Rec1GetFieldEndInfo; nfm; auto. }
  assert (H2 : forall n i d o offs, nf (offsetsOld2 n i d o offs)).
  { induction n; intros; cbn [offsetsOld2]; unfold Rec2GetFieldEndInfo; nfm; auto. }
  assert (H3 : forall cs i d st offs, nf (offsetsNew_loop cs i d st offs)).
  { induction cs; intros; cbn [offsetsNew_loop]; unfold offsetsNew_col; nfm; auto. }
  assert (H4 : forall offs cs i, nf (checkFieldSize offs i cs)).
  { induction cs; intros; cbn [checkFieldSize]; unfold RecOffsNthSize; nfm; auto. }
  assert (H5 : forall o offs cs i, nf (snd (parseFields rt o offs i cs))).
  { induction cs; intros; cbn [parseFields]; unfold parseField, RecGetNthField, RecGetNthFieldOffs; nfm; auto using nf_parse. }
  unfold parsePage_record, parseRecords, ibRecInitOffsetsNew, ibRecInitOffsetsOld, RecGet1byteOffsFlag, RecGetBitField1,
    PageIsCompact, pageHeaderGetField, RecOffsSize, RecOffsDataSize, RecOffsExtraSize, RecOffNFields. nfm; auto; nfm; auto.
Qed.
Lemma nf_next page off : nf (next_offset page off).
Proof. unfold next_offset, PageIsCompact, pageHeaderGetField. nfm. Qed.

(** * Steps of the loop and of the walk *)
Lemma exhausted_alive rt tm page sup cols : page_image page -> forall fuel off cols', Forall2 moved cols cols' ->
  (snd (parsePage_loop fuel rt tm page sup off cols') = NoFuel <-> alive (walk_step rt tm page sup cols) fuel off).
Proof.
  intros [Hlen Hbytes]. change (zlen page) with (len page) in Hlen.
  induction fuel as [|fuel IH]; intros off cols' HM; [cbn; tauto|].
  cbn [parsePage_loop alive]. unfold walk_step at 1.
  destruct ((off <? 16384 - 6) && negb (off =? sup)).
  - pose proof (moved_record rt tm page off cols cols' HM) as Hs. unfold shape in Hs.
    pose proof (nf_record rt tm page off cols') as Hn.
    destruct (parsePage_record rt tm page off cols') as [out [[r|]| |]]; cbn [snd wbind] in *;
      destruct (snd (parsePage_record rt tm page off cols)) as [[r0|]| |]; try contradiction;
      try (cbn; split; [discriminate|contradiction]).
    cbn in Hs. pose proof (nf_next page off) as Hnn. unfold wlift.
    destruct (next_offset page off) as [[o|]| |]; cbn [wbind wret snd app]; try (split; [discriminate|contradiction]); try (now contradict Hnn).
    rewrite <- (IH o r Hs). destruct (parsePage_loop fuel rt tm page sup o r) as [out2 [[rows c]| |]]; cbn; tauto || (split; discriminate).
  - pose proof (read2 page 62 Hbytes ltac:(lia) ltac:(lia)) as E. rewrite E. cbn. split; [discriminate|contradiction].
Qed.

(** * Lifetimes *)
Definition life (step : Z -> option Z) (k : nat) (x : Z) : Prop := alive step k x /\ ~ alive step (S k) x.
Lemma alive_dec step n : forall x, {alive step n x} + {~ alive step n x}.
Proof. induction n as [|n IH]; intro x; cbn; [now left|]. destruct (step x) as [o|]; [apply IH|now right]. Qed.
Lemma alive_le step n : forall m x, (m <= n)%nat -> alive step n x -> alive step m x.
Proof.
  induction n as [|n IH]; intros m x Hm; destruct m as [|m]; cbn; auto; try lia.
  destruct (step x) as [o|]; [|contradiction]. apply IH. lia.
Qed.
Lemma dead_life step x n : ~ alive step n x -> exists k, (k < n)%nat /\ life step k x.
Proof.
  induction n as [|n IH]; intro H; [exfalso; apply H; exact I|].
  destruct (alive_dec step n x) as [Ha|Ha]; [exists n; split; [lia|split; assumption]|].
  destruct (IH Ha) as [k [Hk Hl]]. exists k. split; [lia|exact Hl].
Qed.
Lemma life_unique step k k' x : life step k x -> life step k' x -> k = k'.
Proof.
  intros [H1 H2] [H3 H4]. destruct (Nat.lt_trichotomy k k') as [H|[H|H]]; [|exact H|].
  - exfalso. apply H2. apply (alive_le step k'); [lia|exact H3].
  - exfalso. apply H4. apply (alive_le step k); [lia|exact H1].
Qed.
Lemma life_places step : forall k x, life step k x ->
  exists l, List.length l = k /\ NoDup l /\ Forall (fun y => step y <> None /\ exists j, (j <= k)%nat /\ life step j y) l.
Proof.
  induction k as [|k IH]; intros x Hl; [exists []; repeat split; constructor|].
  pose proof Hl as [H1 H2]. cbn [alive] in H1. destruct (step x) as [y|] eqn:Es; [|contradiction].
  destruct (IH y) as [l [L1 [L2 L3]]].
  { split; [exact H1|]. intro Ha. apply H2. cbn [alive] in *. now rewrite Es. }
  exists (x :: l). split; [cbn; lia|]. split.
  - constructor; [|exact L2]. intro Hin. rewrite Forall_forall in L3. destruct (L3 x Hin) as [_ [j [Hj Hlj]]].
    pose proof (life_unique step _ _ _ Hl Hlj). lia.
  - constructor; [split; [congruence|exists (S k); split; [lia|exact Hl]]|].
    eapply Forall_impl; [|exact L3]. intros z [Hz [j [Hj Hlj]]]. split; [exact Hz|]. exists j. split; [lia|exact Hlj].
Qed.
Lemma places_bound (l : list Z) N : NoDup l -> Forall (fun y => 0 <= y < N) l -> Z.of_nat (List.length l) <= Z.max 0 N.
Proof.
  intros Hn Hf. assert (Hi : incl l (map Z.of_nat (seq 0 (Z.to_nat N)))).
  { intros y Hy. rewrite Forall_forall in Hf. specialize (Hf y Hy). apply in_map_iff. exists (Z.to_nat y). split; [lia|].
    apply in_seq. lia. }
  pose proof (NoDup_incl_length Hn Hi) as H. rewrite map_length, seq_length in H. lia.
Qed.
Lemma life_bound step N k x : (forall y, step y <> None -> 0 <= y < N) -> life step k x -> Z.of_nat k <= Z.max 0 N.
Proof.
  intros Hb Hl. destruct (life_places step k x Hl) as [l [<- [L2 L3]]]. apply places_bound; [exact L2|].
  eapply Forall_impl; [|exact L3]. intros y [Hy _]. now apply Hb.
Qed.
Lemma next_range page off o : all_bytes page -> next_offset page off = Ok (Some o) -> 0 <= u64 (off - 2) <= len page /\ 0 <= o.
Proof.
  intros Hb. unfold next_offset. unfold slice_from at 1.
  destruct ((0 <=? u64 (off - 2)) && (u64 (off - 2) <=? len page)) eqn:E; cbn [bind]; [|discriminate].
  destruct (MatchReadFrom2 _) as [b| |] eqn:EM; cbn [bind]; try discriminate.
  destruct (b =? 0); [discriminate|]. destruct (PageIsCompact page) as [c| |]; cbn [bind]; try discriminate.
  assert (Hb0 : 0 <= b).
  { unfold MatchReadFrom2 in EM. destruct (index (skipn (Z.to_nat (u64 (off - 2))) page) 0) as [x| |] eqn:E0; cbn [bind] in EM; try discriminate.
    destruct (index (skipn (Z.to_nat (u64 (off - 2))) page) 1) as [y| |] eqn:E1; cbn [bind] in EM; try discriminate.
    assert (Hv : b = Z.lor (Z.shiftl x 8) y) by congruence. pose proof (index_all_bytes _ _ _ (all_bytes_skipn _ _ Hb) E0) as Hx. pose proof (index_all_bytes _ _ _ (all_bytes_skipn _ _ Hb) E1) as Hy.
    unfold is_byte in *. rewrite Hv, two_bytes by assumption. lia. }
  intro H. split; [lia|]. unfold u64 in *.
  destruct (negb (c =? 0)); injection H as <-; [apply Z.mod_pos_bound; lia|].
  destruct (b >? 32768); [apply Z.mod_pos_bound; lia|exact Hb0].
Qed.
Lemma step_range rt tm page sup cols off : walk_step rt tm page sup cols off <> None -> 0 <= off < 16378.
Proof.
  intro H. unfold walk_step in H. destruct ((off <? 16384 - 6) && negb (off =? sup)) eqn:E; [|contradiction].
  split; [|lia]. destruct (Z.le_gt_cases 0 off) as [|Hn]; [assumption|exfalso].
  unfold parsePage_record in H. rewrite slice_from_panic in H by lia. cbn in H. contradiction.
Qed.
Lemma walk_finite rt tm page sup cols off fuel : page_image page ->
  snd (parsePage_loop (Z.to_nat 16384) rt tm page sup off cols) = NoFuel -> snd (parsePage_loop fuel rt tm page sup off cols) = NoFuel.
Proof.
  intros Hi H. apply (exhausted_alive rt tm page sup cols Hi _ _ _ (moved_refls cols)) in H.
  apply (exhausted_alive rt tm page sup cols Hi _ _ _ (moved_refls cols)).
  destruct (alive_dec (walk_step rt tm page sup cols) fuel off) as [Ha|Ha]; [exact Ha|exfalso].
  destruct (dead_life _ _ _ Ha) as [k [_ Hl]].
  pose proof (life_bound _ 16378 k off (fun y => step_range rt tm page sup cols y) Hl) as Hk.
  apply (proj2 Hl). eapply alive_le; [|exact H].
  lia.
Qed.
Lemma walk_rows rt tm page sup cols : page_image page -> forall fuel off cols' out rows colsE, Forall2 moved cols cols' ->
  parsePage_loop fuel rt tm page sup off cols' = (out, Ok (rows, colsE)) ->
  exists k, life (walk_step rt tm page sup cols) k off /\ (List.length rows <= S k)%nat.
Proof.
  intro Hi. induction fuel as [|fuel IH]; intros off cols' out rows colsE HM H; [discriminate|].
  cbn [parsePage_loop] in H.
  destruct ((off <? 16384 - 6) && negb (off =? sup)) eqn:Eg.
  - pose proof (moved_record rt tm page off cols cols' HM) as Hs. unfold shape in Hs.
    destruct (parsePage_record rt tm page off cols') as [out1 [[r|]| |]] eqn:Er; cbn [snd wbind] in *; try discriminate;
      destruct (snd (parsePage_record rt tm page off cols)) as [[r0|]| |] eqn:Er0; try contradiction.
    + cbn in Hs. unfold wlift in H. destruct (next_offset page off) as [[o|]| |] eqn:En; cbn [wbind wret] in H; try discriminate.
      * destruct (parsePage_loop fuel rt tm page sup o r) as [out2 [[rows2 c2]| |]] eqn:El; cbn in H; try discriminate.
        assert (Hw : walk_step rt tm page sup cols off = Some o) by (unfold walk_step; now rewrite Eg, Er0, En).
        destruct (IH o r out2 rows2 c2 Hs El) as [k [[K1 K2] K3]]. exists (S k). split; [split|].
        -- cbn [alive]. now rewrite Hw.
        -- intro K. apply K2. cbn [alive] in *. now rewrite Hw in K.
        -- injection H as _ <- _. cbn [List.length]. lia.
      * assert (Hw : walk_step rt tm page sup cols off = None) by (unfold walk_step; now rewrite Eg, Er0, En).
        exists 0%nat. split; [split; [exact I|cbn [alive]; now rewrite Hw]|]. injection H as _ <- _. cbn. lia.
    + assert (Hw : walk_step rt tm page sup cols off = None) by (unfold walk_step; now rewrite Eg, Er0).
      exists 0%nat. split; [split; [exact I|cbn [alive]; now rewrite Hw]|]. injection H as _ <- _. cbn. lia.
  - assert (Hw : walk_step rt tm page sup cols off = None) by (unfold walk_step; now rewrite Eg).
    exists 0%nat. split; [split; [exact I|cbn [alive]; now rewrite Hw]|].
    destruct (wlift _) as [o1 [b| |]]; cbn in H; try discriminate. injection H as _ <- _. cbn. lia.
Qed.

(** * Acyclic pages *)
Lemma next_next_rec compact page o o' : in_format compact page -> 0 <= o < 16384 -> 0 <= o' < 16384 ->
  next_offset page o = Ok (Some o') -> next_rec compact page o o'.
Proof.
  intros Hf Ho Ho' H. pose proof (format_image _ _ Hf) as [Hlen Hbytes]. change (zlen page) with (len page) in Hlen.
  pose proof (next_range page o o' Hbytes H) as [Hr _].
  assert (H2 : 2 <= o). { destruct (Z.le_gt_cases 2 o); [assumption|exfalso]. unfold u64 in Hr. rewrite Hlen in Hr. assert (o = 0 \/ o = 1) as [-> | ->] by lia; cbn in Hr; lia. }
  unfold next_offset in H. rewrite u64_id in H by lia.
  pose proof (read2 page (o - 2) Hbytes ltac:(lia) ltac:(lia)) as E.
  destruct (slice_from page (o - 2)) as [d| |]; cbn [bind] in *; try discriminate. rewrite E in H. cbn [bind] in H.
  rewrite (format_flag compact page Hf) in H. pose proof (field_bound page (o - 2) 2 Hbytes) as HB. change (256 ^ Z.of_nat 2) with 65536 in HB.
  unfold next_rec, linked. destruct (Z.eqb_spec (field page (o - 2) 2) 0) as [|Hnz]; [discriminate|].
  split; [exact Hnz|]. split; [|exact Ho'].
  destruct compact; cbn [bind] in H.
  - change (negb (32768 =? 0)) with true in H. cbv iota in H. injection H as H. rewrite Z.gtb_ltb in H.
    destruct (Z.ltb_spec 32768 (field page (o - 2) 2)).
    + unfold u64 in H. rewrite Z.add_mod_idemp_r in H by lia.
      destruct (Z.lt_ge_cases (o + (field page (o - 2) 2 - 65536)) 0) as [Hneg|Hpos].
      * exfalso. rewrite <- (Z.mod_add _ 1) in H by lia. rewrite Z.mod_small in H by lia. lia.
      * rewrite Z.mod_small in H by lia. subst o'. replace (o + (field page (o - 2) 2 - 65536) - o) with (field page (o - 2) 2 + (-1) * 65536) by lia.
        rewrite Z.mod_add, Z.mod_small by lia. reflexivity.
    + rewrite u64_id in H by lia. subst o'. rewrite Z.mod_small by lia. lia.
  - change (negb (0 =? 0)) with false in H. cbv iota in H. injection H as H. rewrite Z.gtb_ltb in H.
    destruct (Z.ltb_spec 32768 (field page (o - 2) 2)); [|exact H].
    exfalso. unfold u64 in H. rewrite <- (Z.mod_add _ 1) in H by lia. rewrite Z.mod_small in H by lia. lia.
Qed.
Lemma step_next rt tm compact page sup cols o o' : in_format compact page -> walk_step rt tm page sup cols o = Some o' -> 0 <= o' < 16384 ->
  next_rec compact page o o'.
Proof.
  intros Hf H Ho'. assert (Hr : 0 <= o < 16378) by (apply (step_range rt tm page sup cols); congruence).
  unfold walk_step in H. destruct ((o <? 16384 - 6) && negb (o =? sup)); [|discriminate].
  destruct (snd (parsePage_record rt tm page o cols)) as [[r|]| |]; try discriminate.
  destruct (next_offset page o) as [[o2|]| |] eqn:E; try discriminate. injection H as ->.
  apply next_next_rec; try assumption; lia.
Qed.
Lemma walk_acyclic rt tm compact page sup cols : in_format compact page -> acyclic compact page -> forall n x,
  alive (walk_step rt tm page sup cols) n x ->
  exists l, List.length l = n /\ NoDup l /\ Forall (fun y => 0 <= y < 16378 /\ reachable compact page x y) l.
Proof.
  intros Hf Hac. induction n as [|n IH]; intros x Ha; [exists []; repeat split; constructor|].
  cbn [alive] in Ha. destruct (walk_step rt tm page sup cols x) as [y|] eqn:Es; [|contradiction].
  assert (Hx : 0 <= x < 16378) by (apply (step_range rt tm page sup cols); congruence).
  destruct n as [|n]; [exists [x]; repeat split; [constructor; [intros []|constructor]|constructor; [split; [exact Hx|apply rt_refl]|constructor]]|].
  assert (Hy : 0 <= y < 16378).
  { cbn [alive] in Ha. apply (step_range rt tm page sup cols). destruct (walk_step rt tm page sup cols y); [discriminate|contradiction]. }
  pose proof (step_next rt tm compact page sup cols x y Hf Es ltac:(lia)) as Hxy.
  destruct (IH y Ha) as [l [L1 [L2 L3]]]. exists (x :: l). split; [cbn; now rewrite L1|]. split.
  - constructor; [|exact L2]. intro Hin. rewrite Forall_forall in L3. destruct (L3 x Hin) as [_ Hr].
    apply (Hac y). apply clos_rt_t with x; [exact Hr|now apply t_step].
  - constructor; [split; [exact Hx|apply rt_refl]|]. eapply Forall_impl; [|exact L3]. intros z [Hz Hr]. split; [exact Hz|].
    apply rt_trans with y; [now apply rt_step|exact Hr].
Qed.
Lemma acyclic_ends rt tm compact page sup cols off : in_format compact page -> acyclic compact page ->
  snd (parsePage_loop (Z.to_nat 16384) rt tm page sup off cols) <> NoFuel.
Proof.
  intros Hf Hac H. apply (exhausted_alive rt tm page sup cols (format_image _ _ Hf) _ _ _ (moved_refls cols)) in H.
  destruct (walk_acyclic rt tm compact page sup cols Hf Hac _ _ H) as [l [L1 [L2 L3]]].
  pose proof (places_bound l 16378 L2) as Hb. rewrite L1 in Hb. 
  assert (HF : Forall (fun y => 0 <= y < 16378) l) by (eapply Forall_impl; [|exact L3]; intros y [Hy _]; exact Hy).
  specialize (Hb HF). lia.
Qed.

(** * No panic while every record met decodes *)
Lemma walk_safe rt tm compact page cols ls : in_format compact page -> (compact = true -> known tm cols ls) ->
  Forall2 describes cols ls -> (3 <= List.length cols)%nat ->
  forall fuel off cols', Forall2 moved cols cols' ->
  (forall o, reachable compact page off o -> 16378 <= o \/ o = supremum compact \/
     exists fs row, user_origin o /\ stored_at compact page o ls fs
       /\ row_of rt (skipn (Z.to_nat (o + zlen (body fs))) page) cols ls fs row) ->
  snd (parsePage_loop fuel rt tm page (supremum compact) off cols') <> Panic.
Proof.
  intros Hf Hk HD H3. pose proof (format_image _ _ Hf) as Hi.
  induction fuel as [|fuel IH]; intros off cols' HM Hall; [discriminate|].
  destruct (Z.le_gt_cases 16378 off) as [Hge|Hlt]; [rewrite stop_loop by tauto; discriminate|].
  destruct (Z.eq_dec off (supremum compact)) as [He|Hne]; [rewrite stop_loop by tauto; discriminate|].
  destruct (Hall off (rt_refl _ _ _)) as [H|[H|[fs [row [Ho [Hs HR]]]]]]; [lia|contradiction|]. unfold user_origin in Ho.
  destruct (row_moved _ _ _ _ _ _ HR cols' HM) as [r [R1 [R2 R3]]].
  assert (Hr : parsePage_record rt tm page off cols' = (remarks cols' fs, Ok (Some r))).
  { apply (record_any rt tm compact page off cols' ls fs r); try assumption.
    - intro E. now apply (moved_known tm cols), Hk.
    - now apply (moved_describes cols).
    - now rewrite <- (forall2_length _ _ _ HM). }
  rewrite (step_loop fuel rt tm page _ off cols' (remarks cols' fs) r) by (try assumption; lia).
  pose proof Hi as [Hlen Hbytes]. change (zlen page) with (len page) in Hlen.
  assert (Hn : exists n, next_offset page off = Ok n).
  { unfold next_offset. rewrite u64_id by lia. pose proof (read2 page (off - 2) Hbytes ltac:(lia) ltac:(lia)) as E.
    destruct (slice_from page (off - 2)) as [d| |]; cbn [bind] in *; try discriminate. rewrite E. cbn [bind].
    rewrite (format_flag compact page Hf). cbn [bind].
    destruct (_ =? 0); [eauto|]. destruct (negb _); eauto. }
  destruct Hn as [[o|] Hn]; rewrite Hn, wbind_lift; [|discriminate].
  assert (Hnx : snd (parsePage_loop fuel rt tm page (supremum compact) o r) <> Panic).
  { destruct (next_range page off o Hbytes Hn) as [_ Ho0].
    destruct (Z.le_gt_cases 16384 o) as [Hbig|Hsmall].
    - destruct fuel; [discriminate|]. rewrite stop_loop by (try assumption; lia). discriminate.
    - apply IH; [exact R3|]. intros o2 Ho2. apply Hall. apply rt_trans with o; [|exact Ho2].
      apply rt_step. apply next_next_rec; try assumption; lia. }
  destruct (parsePage_loop fuel rt tm page (supremum compact) o r) as [out [[rows c]| |]]; cbn in *; [discriminate|contradiction|discriminate].
Qed.

(** * A walk ends exactly at a place that ends the list *)
Lemma next_rec_next compact page a b : in_format compact page -> 2 <= a <= 16384 -> next_rec compact page a b ->
  next_offset page a = Ok (Some b).
Proof.
  intros Hf Ha [Hnz [Hl Hb]]. pose proof (format_image _ _ Hf) as [Hlen Hbytes]. change (zlen page) with (len page) in Hlen.
  destruct (Z.eq_dec b 0) as [->|H0]; [|destruct (Z.eq_dec b a) as [->|Hne]; [|apply (next_linked compact); try assumption; lia]].
  - unfold linked in Hl. destruct compact; [|contradiction].
    unfold next_offset. rewrite u64_id by lia. pose proof (read2 page (a - 2) Hbytes ltac:(lia) ltac:(lia)) as E.
    destruct (slice_from page (a - 2)) as [d| |]; cbn [bind] in *; try discriminate. rewrite E. cbn [bind].
    rewrite (format_flag true page Hf). cbn [bind]. destruct (Z.eqb_spec (field page (a - 2) 2) 0); [contradiction|].
    change (negb (32768 =? 0)) with true. cbv iota. do 2 f_equal. rewrite Hl.
    replace ((0 - a) mod 65536) with (65536 - a) by (symmetry; rewrite <- (Z.mod_add (0 - a) 1 65536) by lia; rewrite Z.mod_small; lia).
    rewrite Z.gtb_ltb. destruct (Z.ltb_spec 32768 (65536 - a)); [|lia].
    unfold u64. rewrite Z.add_mod_idemp_r by lia. replace (a + (65536 - a - 65536)) with 0 by lia. reflexivity.
  - unfold linked in Hl. destruct compact; [rewrite Z.sub_diag in Hl; contradiction|].
    unfold next_offset. rewrite u64_id by lia. pose proof (read2 page (a - 2) Hbytes ltac:(lia) ltac:(lia)) as E.
    destruct (slice_from page (a - 2)) as [d| |]; cbn [bind] in *; try discriminate. rewrite E. cbn [bind].
    rewrite (format_flag false page Hf). cbn [bind]. destruct (Z.eqb_spec (field page (a - 2) 2) 0); [contradiction|].
    change (negb (0 =? 0)) with false. cbv iota. do 2 f_equal. rewrite Hl. rewrite Z.gtb_ltb. destruct (Z.ltb_spec 32768 a); [lia|reflexivity].
Qed.
Lemma dead_ends rt tm compact page cols ls : in_format compact page -> (compact = true -> known tm cols ls) ->
  Forall2 describes cols ls -> (3 <= List.length cols)%nat ->
  forall n off,
  (forall o, reachable compact page off o -> 16378 <= o \/ o = supremum compact \/
     exists fs row, user_origin o /\ stored_at compact page o ls fs
       /\ row_of rt (skipn (Z.to_nat (o + zlen (body fs))) page) cols ls fs row) ->
  ~ alive (walk_step rt tm page (supremum compact) cols) n off ->
  exists o, reachable compact page off o /\ (16378 <= o \/ o = supremum compact \/ forall o', ~ next_rec compact page o o').
Proof.
  intros Hf Hk HD H3. pose proof (format_image _ _ Hf) as Hi.
  induction n as [|n IH]; intros off Hall Hd; [exfalso; apply Hd; exact I|].
  destruct (Z.le_gt_cases 16378 off) as [Hge|Hlt]; [exists off; split; [apply rt_refl|now left]|].
  destruct (Z.eq_dec off (supremum compact)) as [He|Hne]; [exists off; split; [apply rt_refl|tauto]|].
  destruct (Hall off (rt_refl _ _ _)) as [H|[H|[fs [row [Ho [Hs HR]]]]]]; [lia|contradiction|]. unfold user_origin in Ho.
  pose proof (record_any rt tm compact page off cols ls fs row Hf Hk HD H3 Hs HR) as Hr.
  cbn [alive] in Hd. unfold walk_step at 1 in Hd. replace ((off <? 16384 - 6) && negb (off =? supremum compact)) with true in Hd by lia.
  rewrite Hr in Hd. cbn [snd] in Hd.
  assert (HN : forall o', next_rec compact page off o' -> next_offset page off = Ok (Some o')) by (intros o' H; apply (next_rec_next compact); try assumption; lia).
  destruct (next_offset page off) as [[o|]| |] eqn:En.
  - destruct (next_range page off o (proj2 Hi) En) as [_ Ho0]. destruct (Z.le_gt_cases 16384 o) as [Hbig|Hsmall].
    + exists off. split; [apply rt_refl|]. right. right. intros o' H. pose proof (HN o' H) as E. injection E as <-. destruct H as [_ [_ H]]. lia.
    + assert (Hx : next_rec compact page off o) by (apply next_next_rec; try assumption; lia).
      destruct (IH o) as [e [E1 E2]]; [|exact Hd|].
      * intros o2 H2. apply Hall. apply rt_trans with o; [now apply rt_step|exact H2].
      * exists e. split; [|exact E2]. apply rt_trans with o; [now apply rt_step|exact E1].
  - exists off. split; [apply rt_refl|]. right. right. intros o' H. now pose proof (HN o' H).
  - exists off. split; [apply rt_refl|]. right. right. intros o' H. now pose proof (HN o' H).
  - exists off. split; [apply rt_refl|]. right. right. intros o' H. now pose proof (HN o' H).
Qed.
Lemma ends_dead rt tm compact page cols off o : in_format compact page -> reachable compact page off o ->
  (16378 <= o \/ o = supremum compact \/ forall o', ~ next_rec compact page o o') ->
  exists n, ~ alive (walk_step rt tm page (supremum compact) cols) n off.
Proof.
  intros Hf Hr He. pose proof (format_image _ _ Hf) as Hi. apply clos_rt_rt1n in Hr. induction Hr as [x|x y z Hxy _ IH].
  - destruct (walk_step rt tm page (supremum compact) cols x) as [y|] eqn:Es; [|exists 1%nat; cbn [alive]; rewrite Es; auto].
    pose proof (step_range rt tm page (supremum compact) cols x ltac:(congruence)) as Hx.
    destruct He as [He|[He|He]]; [lia|exfalso; unfold walk_step in Es; subst x; rewrite Z.eqb_refl, andb_false_r in Es; discriminate|].
    exists 2%nat. cbn [alive]. rewrite Es. destruct (walk_step rt tm page (supremum compact) cols y) as [w|] eqn:Ew; [|auto].
    pose proof (step_range rt tm page (supremum compact) cols y ltac:(congruence)) as Hy.
    exfalso. apply (He y). apply (step_next rt tm compact page (supremum compact) cols); try assumption. lia.
  - destruct (IH He) as [n Hn]. exists (S n). cbn [alive]. destruct (walk_step rt tm page (supremum compact) cols x) as [w|] eqn:Es; [|auto].
    assert (w = y); [|now subst w].
    pose proof (step_range rt tm page (supremum compact) cols x ltac:(congruence)) as Hx.
    unfold walk_step in Es. destruct ((x <? 16384 - 6) && negb (x =? supremum compact)); [|discriminate].
    destruct (snd (parsePage_record rt tm page x cols)) as [[r|]| |]; try discriminate.
    destruct (next_offset page x) as [[o2|]| |] eqn:E; try discriminate. injection Es as ->.
    pose proof (next_range page x w (proj2 Hi) E) as [Hu _].
    assert (H2 : 2 <= x). { destruct Hi as [Hlen _]. change (zlen page) with (len page) in Hlen. destruct (Z.le_gt_cases 2 x); [assumption|exfalso]. unfold u64 in Hu. rewrite Hlen in Hu. assert (x = 0 \/ x = 1) as [-> | ->] by lia; cbn in Hu; lia. }
    rewrite (next_rec_next compact page x y Hf ltac:(lia) Hxy) in E. congruence.
Qed.

(** * More fuel changes nothing once the walk has ended *)
Lemma loop_mono rt tm page sup : forall f off cols, snd (parsePage_loop f rt tm page sup off cols) <> NoFuel ->
  forall f', (f <= f')%nat -> parsePage_loop f' rt tm page sup off cols = parsePage_loop f rt tm page sup off cols.
Proof.
  induction f as [|f IH]; intros off cols H f' Hf'; [exfalso; apply H; reflexivity|].
  destruct f' as [|f']; [lia|]. cbn [parsePage_loop] in *.
  destruct (_ && _); [|reflexivity].
  destruct (parsePage_record rt tm page off cols) as [out [[r|]| |]]; cbn [wbind] in *; try reflexivity.
  destruct (wlift (next_offset page off)) as [out2 [[o|]| |]]; cbn [wbind] in *; try reflexivity.
  rewrite (IH o r); [reflexivity| |lia].
  intro E. apply H. destruct (parsePage_loop f rt tm page sup o r) as [out3 [[? ?]| |]]; cbn in *; try discriminate. reflexivity.
Qed.
Lemma page_mono f f' rt tm page cols rec free : snd (parsePage f rt tm page cols rec free) <> NoFuel -> (f <= f')%nat ->
  parsePage f' rt tm page cols rec free = parsePage f rt tm page cols rec free.
Proof.
  unfold parsePage. intros H Hf. destruct (wlift (PageIsCompact page)) as [o [c| |]]; cbn [wbind] in *; try reflexivity.
  destruct (wlift _) as [o2 [b| |]]; cbn [wbind] in *; try reflexivity.
  match type of H with context [parsePage_loop f rt tm page ?s ?x cols] => rewrite (loop_mono rt tm page s f x cols); [reflexivity| |lia];
    intro E; apply H; destruct (parsePage_loop f rt tm page s x cols) as [o3 r]; cbn in *; exact E end.
Qed.
Lemma image_format page : page_image page -> exists compact, in_format compact page.
Proof.
  intro H. destruct (Z.le_gt_cases 128 (nth 42 page 0)) as [Hc|Hc]; [exists true|exists false]; split; assumption.
Qed.
