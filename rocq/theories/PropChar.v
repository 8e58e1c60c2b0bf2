(** C138: CHAR columns of character sets with one byte per character. *)
From Coq Require Import ZifyBool.
From Verif Require Import GoBase Utils Ibdata SpecInno SpecText SpecSql SpecRecord SpecRow SpecPage SpecDict
  PBase PWire PValue PText PRec PPage PTypes PSql PFile PropValue PropRec PropFile PBuild PropTool PropGeometry PropVarchar.
Local Open Scope list_scope.
Local Open Scope Z_scope.

(** A CHAR(n) of such a set (main type 2): its values are stored with blanks up
    to [n] bytes. *)
Definition one_byte_char (c : Column) (n : Z) : Prop := c_type c = innodb_char /\ c_mysql c = field_string /\ c_len c = n /\ 0 < n < 256 /\ c_binary c = false.
Definition with_blanks (n : Z) (s : list Z) : list Z := s ++ repeat 32 (Z.to_nat (n - zlen s)).
(** Values of such columns have no blanks at their end; what MySQL makes of a
    string that is given as the value of such a column. *)
Definition no_blank_end (s : list Z) : Prop := last s 0 <> 32.
Fixpoint without_blanks (s : list Z) : list Z :=
  match s with [] => [] | b :: t => match without_blanks t with [] => if b =? 32 then [] else [b] | t' => b :: t' end end.
Definition taken (v : sqlval) : sqlval := match v with SStr t => SStr (without_blanks t) | _ => v end.
(** The records of a page, the rows that are read and the lines printed
    meanwhile: as [page_content], with the stored columns in view. *)
Inductive page_records (rt : runtime) (compact : bool) (page : list Z) (cols : list Column) (ls : list layout) :
  list Z -> list (list stored) -> list (list Column) -> list bytes -> Prop :=
| records_nil : page_records rt compact page cols ls [] [] [] []
| records_cons off offs fs fss row rows lines :
    user_origin off -> stored_at compact page off ls fs ->
    row_of rt (skipn (Z.to_nat (off + zlen (body fs))) page) cols ls fs row ->
    page_records rt compact page cols ls offs fss rows lines ->
    page_records rt compact page cols ls (off :: offs) (fs :: fss) (row :: rows) (remarks cols fs ++ lines).
Definition page_stores (rt : runtime) (tm : gomap Table) (deleted : bool) (cols : list Column) (ls : list layout)
    (page : list Z) (content : list (list stored) * (list bytes * list (list Column))) : Prop :=
  exists compact offs, in_format compact page /\ (compact = true -> known tm cols ls)
    /\ (if deleted then free_chain compact page offs /\ hd_error offs = Some (field page 44 2)
        else chain compact page (infimum compact) offs (supremum compact))
    /\ page_records rt compact page cols ls offs (fst content) (snd (snd content)) (fst (snd content)).
(** For each value of such a column: MySQL takes it from the statement, unless
    it is the text NULL and fills the column. *)
Definition chars_right (cols : list Column) (fs : list stored) (vs : list sqlval) : Prop :=
  forall i c n s, nth_error cols i = Some c -> one_byte_char c n -> internal c = false ->
    nth_error fs i = Some (FBytes (with_blanks n s)) -> zlen s <= n -> no_blank_end s ->
    exists v, nth_error vs (place_of cols i) = Some v /\ (taken v = SStr s <-> ~ (n = 4 /\ s = txt "NULL")) /\ (v = SNull <-> n = 4 /\ s = txt "NULL").

Lemma without_all n : without_blanks (repeat 32 n) = [].
Proof. induction n as [|n IH]; [reflexivity|]. cbn [repeat without_blanks]. now rewrite IH. Qed.
Lemma without_padding s n : no_blank_end s -> without_blanks (s ++ repeat 32 n) = s.
Proof.
  unfold no_blank_end. induction s as [|b s IH]; intro H; [apply without_all|]. cbn [app without_blanks]. destruct s as [|b' s].
  - cbn [app]. rewrite without_all. cbn in H. now replace (b =? 32) with false by lia.
  - rewrite IH by exact H. reflexivity.
Qed.
Lemma blanks_null n s : zlen s <= n -> no_blank_end s -> with_blanks n s = txt "NULL" <-> n = 4 /\ s = txt "NULL".
Proof.
  intros Hn Hs. split.
  - intro E. unfold with_blanks in E. assert (X : without_blanks (s ++ repeat 32 (Z.to_nat (n - zlen s))) = txt "NULL") by (rewrite E; reflexivity).
    rewrite without_padding in X by exact Hs. split; [|exact X]. apply (f_equal (@List.length Z)) in E. rewrite app_length, repeat_length, X in E. rewrite X in Hn. change (zlen (txt "NULL")) with 4 in *. cbn [List.length txt] in E.
    change (List.length (txt "NULL")) with 4%nat in E. lia.
  - intros [-> ->]. reflexivity.
Qed.
Lemma records_rows rt compact page cols ls offs fss rows lines : page_records rt compact page cols ls offs fss rows lines -> page_rows rt compact page cols ls offs rows lines.
Proof. induction 1; now constructor. Qed.
Lemma char_place rt after : forall cols ls gs row, row_of rt after cols ls gs row -> forall vs, shows rt row vs ->
  forall i c n w, nth_error cols i = Some c -> one_byte_char c n -> internal c = false -> nth_error gs i = Some (FBytes w) ->
  nth_error vs (place_of cols i) = Some (if list_eq_dec Z.eq_dec w (txt "NULL") then SNull else SStr w).
Proof.
  assert (HI : forall c d, c_name c = c_name d -> internal c = internal d) by (intros c d E; unfold internal; now rewrite E).
  induction 1 as [|c cs l ls fs r HR IH|c cs l ls f fs v bin r Hf Ev HR IH]; intros vs HS [|i] d n w Hd HV Hi Hw; cbn [nth_error] in *; try discriminate.
  - unfold place_of. cbn [firstn user_columns filter]. inversion HS as [|? ? ? N HS'|? ? ? ? N _ _ HS']; subst.
    + assert (internal c = true) as -> by (apply internal_not in N; rewrite <- N; now apply HI). cbn [negb]. exact (IH _ HS' i d n w Hd HV Hi Hw).
    + assert (internal c = false) as -> by (apply not_true_iff_false; intro X; apply N, internal_not; rewrite <- X; now apply HI).
      cbn [negb List.length nth_error]. exact (IH _ HS' i d n w Hd HV Hi Hw).
  - injection Hd as ->. injection Hw as ->. destruct HV as (Hd1 & Hd2 & _ & _ & Hb). cbn [content] in Ev. rewrite Hd1, Hd2 in Ev. change (@zlen) with (@len) in Ev. rewrite C19_text_exact in Ev by (now right; left).
    injection Ev as _ <- <-. unfold place_of. cbn [firstn user_columns filter List.length nth_error]. inversion HS as [|? ? ? N HS'|? ? ? ? N HX HP HS']; subst.
    + exfalso. apply internal_not in N. assert (X : internal d = true) by (rewrite <- N; now apply HI). congruence.
    + f_equal. inversion HX as [? [HN|HN] _|? t HT _ _|? ? ? _ _ _ B|? ? HN _ _]; subst; cbn [c_value c_binary] in *; try discriminate.
      * injection HN as HN. rewrite HN. now destruct (list_eq_dec Z.eq_dec (txt "NULL") (txt "NULL")).
      * inversion HT; subst. destruct HP as [_ [HP _]]. now destruct (list_eq_dec Z.eq_dec t (txt "NULL")).
      * congruence.
  - unfold place_of. cbn [firstn user_columns filter]. inversion HS as [|? ? ? N HS'|? ? ? ? N _ _ HS']; subst.
    + assert (internal c = true) as -> by (apply internal_not in N; rewrite <- N; now apply HI). cbn [negb]. exact (IH _ HS' i d n w Hd HV Hi Hw).
    + assert (internal c = false) as -> by (apply not_true_iff_false; intro X; apply N, internal_not; rewrite <- X; now apply HI).
      cbn [negb List.length nth_error]. exact (IH _ HS' i d n w Hd HV Hi Hw).
Qed.
(** C138: the lines printed for a file, in either record format, with any
    columns besides; MySQL takes from them the values of the CHAR columns,
    except NULL in a CHAR(4), which becomes SQL's NULL. *)
Theorem C138_exact_refuted : forall rt tm pages db tb deleted cols ls contents vals fuel,
  Forall page_image pages -> is_table tm db tb cols -> Forall2 describes cols ls -> (3 <= List.length cols)%nat ->
  Forall2 (page_stores rt tm deleted cols ls) (filter (eligible deleted) (firsts pages)) contents ->
  Forall2 (fun content vss => Forall2 (fun row vs => shows rt row vs /\ vs <> []) (snd (snd content)) vss) contents vals ->
  ~ In 96 db -> ~ In 96 tb -> (Z.to_nat 16384 < fuel)%nat ->
  exists lines, ParseDataPage fuel rt tm (Some (map IoBytes pages)) db tb deleted = (lines, Ok None)
    /\ file_lines db tb (map snd contents) vals lines
    /\ Forall2 (fun content vss => Forall2 (chars_right cols) (fst content) vss) contents vals.
Proof.
  intros rt tm pages db tb deleted cols ls contents vals fuel Hi Ht HD H3 HC HV Hd Htb Hfuel.
  destruct (C75_lines rt tm pages db tb deleted cols ls (map snd contents) vals fuel) as [lines [E1 E2]]; try assumption.
  - clear - HC. induction HC as [|page ct ps cts (compact & offs & H1 & H2 & H3 & HR) _ IH]; cbn [map]; constructor; [|exact IH]. exists compact, offs. apply records_rows in HR. auto.
  - clear - HV. induction HV; cbn [map]; constructor; assumption.
  - exists lines. split; [exact E1|]. split; [exact E2|].
    clear - HC HV. revert vals HV. induction HC as [|page ct ps cts (compact & offs & _ & _ & _ & HR) _ IH]; intros vals HV; inversion HV as [|? vss ? vals' V1 V2]; subst; constructor; [|now apply IH].
    clear - HR V1. revert vss V1. induction HR as [|off offs fs fss row rows lines Hu Hat Hrow _ IH]; intros vss HV; inversion HV as [|? vs ? vss' [V1 _] V2]; subst; constructor; [|now apply IH].
    intros i c n s Hc HL Hint Hf Hn Hs. pose proof (char_place _ _ _ _ _ _ Hrow vs V1 i c n _ Hc HL Hint Hf) as E. pose proof (blanks_null n s Hn Hs) as HB.
    eexists. split; [exact E|]. destruct (list_eq_dec Z.eq_dec (with_blanks n s) (txt "NULL")) as [X|X]; rewrite HB in X.
    + split; [split; [discriminate|tauto]|tauto].
    + split; [split; [tauto|]|split; [discriminate|tauto]]. intros _. cbn [taken]. f_equal. now apply without_padding.
Qed.
Print Assumptions C138_exact_refuted.

(** A CHAR of a character set with several bytes per character (main type 13). *)
Definition many_byte_char (c : Column) : Prop := c_type c = innodb_mysql /\ c_mysql c = field_string /\ c_binary c = false.
(** For each value of such a column, however many blanks it is stored with:
    MySQL takes it from the statement, unless it has white space of Unicode at an
    end or is the text NULL; and NULL with white space around is SQL's NULL. *)
Definition many_right (cols : list Column) (fs : list stored) (vs : list sqlval) : Prop :=
  forall i c n s, nth_error cols i = Some c -> many_byte_char c -> internal c = false ->
    nth_error fs i = Some (FBytes (s ++ repeat 32 n)) -> Forall (fun b => 0 <= b < 256) s -> no_blank_end s ->
    exists v, nth_error vs (place_of cols i) = Some v
      /\ (taken v = SStr s <-> ~ starts_white s /\ ~ ends_white s /\ s <> txt "NULL")
      /\ (v = SNull <-> exists l r, Forall white l /\ Forall white r /\ s ++ repeat 32 n = flat_map utf8 l ++ txt "NULL" ++ flat_map utf8 r).

Lemma byte_check k : forallb (fun b => (0 <=? b) && (b <? 256)) k = true -> all_bytes k.
Proof. intro E. apply Forall_forall. intros x Hx. rewrite forallb_forall in E. specialize (E x Hx). unfold is_byte. lia. Qed.
Lemma white_bytes l : Forall white l -> all_bytes (flat_map utf8 l).
Proof.
  induction 1 as [|c l Hw _ IH]; [constructor|]. cbn [flat_map]. apply all_bytes_app. split; [|exact IH].
  unfold white in Hw. cbn [In] in Hw. repeat (destruct Hw as [<-|Hw]; [apply byte_check; reflexivity|]). contradiction.
Qed.
Lemma trim_left_white l : forall rest f, Forall white l -> (List.length l <= f)%nat ->
  trim_left_aux f (flat_map utf8 l ++ rest) = trim_left_aux (f - List.length l) rest.
Proof.
  induction l as [|c l IH]; intros rest f HW Hf; [now rewrite Nat.sub_0_r|]. inversion HW as [|? ? Hc Hl]; subst. destruct f as [|f]; [cbn in Hf; lia|]. cbn [List.length] in *.
  cbn [flat_map]. rewrite <- app_assoc. pose proof (utf8_len c (white_scalar c Hc)) as L. pose proof (decode_utf8 c (flat_map utf8 l ++ rest) (white_scalar c Hc)) as D.
  cbn [trim_left_aux]. destruct (utf8 c ++ flat_map utf8 l ++ rest) as [|b t] eqn:E; [apply (f_equal (@List.length Z)) in E; rewrite app_length in E; cbn in E; lia|].
  rewrite D. apply is_space_white in Hc. rewrite Hc, <- E, skipn_app_len, IH by (assumption || lia). reflexivity.
Qed.
Lemma trim_right_white l : forall x f, Forall white l -> all_bytes x -> (List.length l <= f)%nat ->
  trim_right_aux f (rev (x ++ flat_map utf8 l)) = trim_right_aux (f - List.length l) (rev x).
Proof.
  induction l as [|c l IH] using rev_ind; intros x f HW Hx Hf; [cbn [flat_map List.length]; now rewrite app_nil_r, Nat.sub_0_r|].
  apply Forall_app in HW as [Hl Hc]. inversion Hc as [|? ? Hw _]; subst. rewrite app_length in *. cbn [List.length] in *. destruct f as [|f]; [lia|].
  rewrite flat_map_app. cbn [flat_map]. rewrite app_nil_r, app_assoc, rev_app_distr. pose proof (utf8_len c (white_scalar c Hw)) as L.
  pose proof (decode_last_utf8 c (rev (x ++ flat_map utf8 l)) (white_scalar c Hw)) as D. cbn [trim_right_aux].
  destruct (rev (utf8 c) ++ rev (x ++ flat_map utf8 l)) as [|b t] eqn:E; [apply (f_equal (@List.length Z)) in E; rewrite app_length, rev_length in E; cbn in E; lia|].
  rewrite D by (apply Forall_rev, all_bytes_app; split; [exact Hx|now apply white_bytes]). apply is_space_white in Hw. rewrite Hw, <- E, <- (rev_length (utf8 c)), skipn_app_len, IH by (assumption || lia).
  f_equal. lia.
Qed.
Lemma trimmed_tight x : all_bytes x -> tight (trim_space x).
Proof.
  intro Hb. unfold trim_space, trim_right, trim_left. destruct (trim_left_infix (List.length x) x Hb (le_n _)) as [l [_ El]]. pose proof (trim_left_none (List.length x) x Hb (le_n _)) as NL.
  set (y := trim_left_aux (List.length x) x) in *. assert (Hy : all_bytes y) by (rewrite El in Hb; apply all_bytes_app in Hb; tauto).
  pose proof (trim_right_none (List.length y) y Hy (le_n _)) as NR. destruct (trim_right_infix (List.length y) y Hy (le_n _)) as [r [_ Er]].
  split; [|exact NR]. intros [c [t [Hw Et]]]. apply NL. exists c, (t ++ flat_map utf8 r). split; [exact Hw|]. rewrite Er, Et, <- app_assoc. reflexivity.
Qed.
Lemma tight_no_blank s : tight s -> no_blank_end s.
Proof.
  intros [_ H] E. destruct s as [|b s] using rev_ind; [discriminate E|]. rewrite last_last in E. subst b. apply H. exists 32, s. split; [cbn; tauto|reflexivity].
Qed.
Lemma white_null x : all_bytes x -> trim_space x = txt "NULL" <-> exists l r, Forall white l /\ Forall white r /\ x = flat_map utf8 l ++ txt "NULL" ++ flat_map utf8 r.
Proof.
  intro Hb. split.
  - intro E. destruct (trim_space_infix x Hb) as [l [r [Hl [Hr X]]]]. rewrite E in X. now exists l, r.
  - intros [l [r [Hl [Hr ->]]]]. assert (HN : all_bytes (txt "NULL")) by (now apply byte_check).
    assert (Len : forall k, Forall white k -> (List.length k <= List.length (flat_map utf8 k))%nat).
    { induction 1 as [|c k Hw _ IH]; [cbn; lia|]. cbn [flat_map List.length]. rewrite app_length. pose proof (utf8_len c (white_scalar c Hw)). lia. }
    unfold trim_space, trim_left. rewrite trim_left_white; [|exact Hl|rewrite app_length; pose proof (Len l Hl); lia].
    rewrite trim_left_same.
    2:{ apply all_bytes_app. split; [exact HN|now apply white_bytes]. }
    2:{ intros [c [t [Hw E]]]. unfold white in Hw. cbn [In] in Hw. repeat (destruct Hw as [<-|Hw]; [discriminate E|]). contradiction. }
    unfold trim_right. rewrite trim_right_white; [|exact Hr|exact HN|rewrite app_length; pose proof (Len r Hr); lia].
    rewrite trim_right_same; [apply rev_involutive|exact HN|].
    intros [c [t [Hw E]]]. apply (f_equal (@rev Z)) in E. rewrite rev_app_distr in E. unfold white in Hw. cbn [In] in Hw. repeat (destruct Hw as [<-|Hw]; [discriminate E|]). contradiction.
Qed.
Lemma many_read rt mysql w rest fx u b : ParseData rt innodb_mysql mysql (w ++ rest) (len w) fx u b = ([], Ok (VStr (trim_space w), b)).
Proof. unfold ParseData. rewrite slice_to_app by reflexivity. reflexivity. Qed.
Lemma many_place rt after : forall cols ls gs row, row_of rt after cols ls gs row -> forall vs, shows rt row vs ->
  forall i c w, nth_error cols i = Some c -> many_byte_char c -> internal c = false -> nth_error gs i = Some (FBytes w) ->
  nth_error vs (place_of cols i) = Some (if list_eq_dec Z.eq_dec (trim_space w) (txt "NULL") then SNull else SStr (trim_space w)).
Proof.
  assert (HI : forall c d, c_name c = c_name d -> internal c = internal d) by (intros c d E; unfold internal; now rewrite E).
  induction 1 as [|c cs l ls fs r HR IH|c cs l ls f fs v bin r Hf Ev HR IH]; intros vs HS [|i] d w Hd HV Hi Hw; cbn [nth_error] in *; try discriminate.
  - unfold place_of. cbn [firstn user_columns filter]. inversion HS as [|? ? ? N HS'|? ? ? ? N _ _ HS']; subst.
    + assert (internal c = true) as -> by (apply internal_not in N; rewrite <- N; now apply HI). cbn [negb]. exact (IH _ HS' i d w Hd HV Hi Hw).
    + assert (internal c = false) as -> by (apply not_true_iff_false; intro X; apply N, internal_not; rewrite <- X; now apply HI).
      cbn [negb List.length nth_error]. exact (IH _ HS' i d w Hd HV Hi Hw).
  - injection Hd as ->. injection Hw as ->. destruct HV as (Hd1 & Hd2 & Hb). cbn [content] in Ev. rewrite Hd1, Hd2 in Ev. change (@zlen) with (@len) in Ev.
    rewrite many_read in Ev. injection Ev as _ <- <-. unfold place_of. cbn [firstn user_columns filter List.length nth_error]. inversion HS as [|? ? ? N HS'|? ? ? ? N HX HP HS']; subst.
    + exfalso. apply internal_not in N. assert (X : internal d = true) by (rewrite <- N; now apply HI). congruence.
    + f_equal. inversion HX as [? [HN|HN] _|? t HT _ _|? ? ? _ _ _ B|? ? HN _ _]; subst; cbn [c_value c_binary] in *; try discriminate.
      * injection HN as HN. rewrite HN. now destruct (list_eq_dec Z.eq_dec (txt "NULL") (txt "NULL")).
      * inversion HT; subst. destruct HP as [_ [HP _]]. now destruct (list_eq_dec Z.eq_dec (trim_space w) (txt "NULL")).
      * congruence.
  - unfold place_of. cbn [firstn user_columns filter]. inversion HS as [|? ? ? N HS'|? ? ? ? N _ _ HS']; subst.
    + assert (internal c = true) as -> by (apply internal_not in N; rewrite <- N; now apply HI). cbn [negb]. exact (IH _ HS' i d w Hd HV Hi Hw).
    + assert (internal c = false) as -> by (apply not_true_iff_false; intro X; apply N, internal_not; rewrite <- X; now apply HI).
      cbn [negb List.length nth_error]. exact (IH _ HS' i d w Hd HV Hi Hw).
Qed.
(** C138: the same for character sets with several bytes per character. *)
Theorem C138_many_refuted : forall rt tm pages db tb deleted cols ls contents vals fuel,
  Forall page_image pages -> is_table tm db tb cols -> Forall2 describes cols ls -> (3 <= List.length cols)%nat ->
  Forall2 (page_stores rt tm deleted cols ls) (filter (eligible deleted) (firsts pages)) contents ->
  Forall2 (fun content vss => Forall2 (fun row vs => shows rt row vs /\ vs <> []) (snd (snd content)) vss) contents vals ->
  ~ In 96 db -> ~ In 96 tb -> (Z.to_nat 16384 < fuel)%nat ->
  exists lines, ParseDataPage fuel rt tm (Some (map IoBytes pages)) db tb deleted = (lines, Ok None)
    /\ file_lines db tb (map snd contents) vals lines
    /\ Forall2 (fun content vss => Forall2 (many_right cols) (fst content) vss) contents vals.
Proof.
  intros rt tm pages db tb deleted cols ls contents vals fuel Hi Ht HD H3 HC HV Hd Htb Hfuel.
  destruct (C138_exact_refuted rt tm pages db tb deleted cols ls contents vals fuel) as [lines [E1 [E2 _]]]; try assumption.
  exists lines. split; [exact E1|]. split; [exact E2|].
  clear - HC HV. revert vals HV. induction HC as [|page ct ps cts (compact & offs & _ & _ & _ & HR) _ IH]; intros vals HV; inversion HV as [|? vss ? vals' V1 V2]; subst; constructor; [|now apply IH].
  clear - HR V1. revert vss V1. induction HR as [|off offs fs fss row rows lines Hu Hat Hrow _ IH]; intros vss HV; inversion HV as [|? vs ? vss' [V1 _] V2]; subst; constructor; [|now apply IH].
  intros i c n s Hc HL Hint Hf Hb Hs. pose proof (many_place _ _ _ _ _ _ Hrow vs V1 i c _ Hc HL Hint Hf) as E. eexists. split; [exact E|].
  assert (Hbn : all_bytes (s ++ repeat 32 n)) by (apply all_bytes_app; split; [exact Hb|]; apply Forall_forall; intros x Hx; apply repeat_spec in Hx as ->; unfold is_byte; lia).
  pose proof (white_null _ Hbn) as HN. pose proof (trim_space_exact s n Hb) as HT. pose proof (trimmed_tight _ Hbn) as HG. apply tight_no_blank in HG.
  rewrite <- HN. clear HN. destruct (list_eq_dec Z.eq_dec (trim_space (s ++ repeat 32 n)) (txt "NULL")) as [X|X].
  - split; [|tauto]. split; [discriminate|]. intros [T1 [T2 T3]]. exfalso. apply T3. rewrite <- X. symmetry. apply HT. now split.
  - split; [|split; [discriminate|tauto]]. cbn [taken]. rewrite <- (app_nil_r (trim_space _)). change (@nil Z) with (repeat 32 0) at 1. rewrite without_padding by exact HG. split.
    + intro Y. injection Y as Y. rewrite Y in X. apply HT in Y as [Y1 Y2]. tauto.
    + intros [T1 [T2 T3]]. f_equal. apply HT. now split.
Qed.
Print Assumptions C138_many_refuted.

(** A table with an INT key, a CHAR(4) and a CHAR(6) of one byte per
    character and a CHAR(6) of several: the row with 5, twice the text NULL and
    a blank with NULL is printed as 5, NULL, 'NULL  ' and NULL. *)
Definition ch_cols : list Column := [dcol "id" 6 3 4 false; dcol "DB_TRX_ID" 0 0 6 false; dcol "DB_ROLL_PTR" 0 0 7 false; dcol "c" innodb_char field_string 4 false; dcol "d" innodb_char field_string 6 false; dcol "e" innodb_mysql field_string 18 false].
Definition ch_lays : list layout := [fixed 4; fixed 6; fixed 7; fixed 4; fixed 6; varying false false].
Definition ch_row : list stored := [FBytes [128; 0; 0; 5]; FBytes (repeat 1 6); FBytes (repeat 2 7); FBytes (with_blanks 4 (txt "NULL")); FBytes (with_blanks 6 (txt "NULL")); FBytes (txt " NULL" ++ repeat 32 1)].
Definition ch_page : list Z := built true 3 17855 53 [crec ch_lays ch_row].
Definition ch_out : list Column := map (fun cv => set_value (fst cv) (snd cv) false) (combine ch_cols [VInt 5; VNil; VNil; VStr (txt "NULL"); VStr (txt "NULL  "); VStr (txt "NULL")]).
Example C138_case : forall rt, let tm := [(7, mkTable (txt "d") (txt "t") ch_cols [] 0 0)] in
  Forall page_image [ch_page] /\ filter (eligible false) (firsts [ch_page]) = [ch_page]
  /\ is_table tm (txt "d") (txt "t") ch_cols /\ Forall2 describes ch_cols ch_lays
  /\ page_stores rt tm false ch_cols ch_lays ch_page ([ch_row], ([], [ch_out]))
  /\ shows rt ch_out [SStr (txt "5"); SNull; SStr (txt "NULL  "); SNull] /\ one_byte_char (dcol "c" innodb_char field_string 4 false) 4 /\ one_byte_char (dcol "d" innodb_char field_string 6 false) 6 /\ many_byte_char (dcol "e" innodb_mysql field_string 18 false)
  /\ map taken [SStr (txt "5"); SNull; SStr (txt "NULL  "); SNull] = [SStr (txt "5"); SNull; SStr (txt "NULL"); SNull].
Proof.
  intros rt tm. set (recs := [crec ch_lays ch_row]). assert (Hf : Forall fine recs) by (apply fine_check; vm_compute; reflexivity).
  assert (Hl : zlen (blocks true 125 recs) <= 16000) by (vm_compute; discriminate).
  assert (HD : Forall2 describes ch_cols ch_lays) by (unfold ch_cols, ch_lays; repeat (apply Forall2_cons; [split; [reflexivity|unfold innodb_char, innodb_mysql; cbn; lia]|]); constructor).
  destruct (built_alone 3 53 _ Hf Hl) as [Hi He]; try lia. split; [exact Hi|]. split; [exact He|]. split; [|split; [exact HD|split; [|split; [|split; [|split; [|split]]]]]].
  - split; [eexists _, _; split; [now left|split; reflexivity]|]. intros id t [X|[]] _ _. injection X as <- <-. reflexivity.
  - destruct (built_page true 3 17855 53 recs Hf Hl) as [P1 [_ [_ [_ [_ [_ [P2 P3]]]]]]]; try lia. exists true, (origins 125 recs). split; [exact P1|].
    split; [intros _; eexists _, _; split; [reflexivity|]; split; [reflexivity|]; split; [exact HD|reflexivity]|]. split; [exact P2|]. destruct P1 as [[PL _] _].
    change (built true 3 17855 53 recs) with ch_page in PL, P3. revert PL P3. generalize ch_page as page. generalize (origins 125 recs) as os. intros os page PL P3. apply only_one in P3 as [o [-> HX]].
    destruct HX as [pre [l [post [E1 [E2 [E3 E4]]]]]]. cbn [low high crec] in E1, E2. change (rev (lengths ch_lays ch_row) ++ be (Z.to_nat ((nullable_count ch_lays + 7) / 8)) (flags_number (null_flags ch_lays ch_row)) ++ [0; 0; 0]) with [6; 0; 0; 0] in *. change (zlen [6; 0; 0; 0]) with 4 in E2.
    assert (EL : zlen page = zlen pre + 4 + 2 + 33 + zlen post) by (rewrite E1; change (@zlen) with (@len); rewrite !len_app, len_be; change (len [6; 0; 0; 0]) with 4; change (len (body ch_row)) with 33; lia).
    rewrite PL in EL. change (@nil bytes) with (remarks ch_cols ch_row ++ @nil bytes).
    apply (records_cons rt true page ch_cols ch_lays o [] ch_row [] ch_out [] []); [unfold user_origin, zlen in *; lia| | |constructor].
    + exists pre, ([0; 0; 0] ++ be 2 l), post. split; [rewrite E1; rewrite <- !app_assoc; reflexivity|]. split; [unfold zlen in *; lia|].
      split; [change (@zlen) with (@len); rewrite len_app, len_be; reflexivity|]. split; [rewrite E2; change (zlen (lengths ch_lays ch_row)) with 1; change ((nullable_count ch_lays + 7) / 8) with 0; lia|].
      repeat (constructor; [vm_compute; reflexivity|]). constructor.
    + generalize (skipn (Z.to_nat (o + zlen (body ch_row))) page) as aft. intro aft. unfold ch_row, ch_out, ch_cols. cbn [map combine fst snd set_value].
      eapply row_quiet; [discriminate|exact (int_five rt _)|]. do 2 (eapply row_quiet; [discriminate|reflexivity|]).
      do 2 (eapply row_quiet; [discriminate|apply (C19_text_exact rt innodb_char); now right; left|]). eapply row_quiet; [discriminate|apply many_read|]. constructor.
  - unfold ch_out, ch_cols. cbn [map combine fst snd set_value].
    apply shows_user; [intros [X|[X|X]]; discriminate|apply st_text; [apply text_int; number|intro X; discriminate X|reflexivity]|plain_text|].
    apply shows_internal; [right; left; reflexivity|]. apply shows_internal; [right; right; reflexivity|].
    apply shows_user; [intros [X|[X|X]]; discriminate|apply st_null; [now right|intro X; discriminate X]|exact I|].
    apply shows_user; [intros [X|[X|X]]; discriminate|apply st_text; [apply text_str|intro X; discriminate X|reflexivity]|plain_text|].
    apply shows_user; [intros [X|[X|X]]; discriminate|apply st_null; [now right|intro X; discriminate X]|exact I|]. constructor.
  - unfold one_byte_char. cbn. lia.
  - unfold one_byte_char. cbn. lia.
  - repeat split.
  - reflexivity.
Qed.
