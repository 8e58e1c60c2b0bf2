(** Lemmas about Redo.v: the cursor only moves forward, the loops end. *)
From Coq Require Import ZifyBool.
From Verif Require Import GoBase Utils Ibdata Redo SpecInno SpecText SpecSql PBase PWire PPage.
Local Open Scope list_scope.
Ltac Zify.zify_post_hook ::= Z.div_mod_to_equations.

Lemma ok_inj {A} (x y : A) : Ok x = Ok y -> x = y.
Proof. congruence. Qed.

Section Forward.
Variable D : bytes -> Prop.
Variable L lo : Z.
Hypothesis Hlo : 0 <= lo.

(** From cursor s the code leaves the cursor at lo or beyond and not too far, ends,
    prints only lines in D, and gives a value satisfying Q if it gives one. *)
Definition ok {A} (s : Z) (m : P A) (Q : A -> Z -> Prop) : Prop :=
  let '(o, s', r) := m s in
  Forall D o /\ lo <= s' <= L + 2 ^ 40 /\ match r with Ok a => Q a s' | Panic => True | NoFuel => False end.
Lemma ok_bind {A B} s (m : P A) (k : A -> P B) Q : ok s m (fun a s1 => ok s1 (k a) Q) -> ok s (pbind m k) Q.
Proof.
  unfold ok, pbind. destruct (m s) as [[o s1] [a| |]]; try tauto. intros [H1 [H2 H3]].
  destruct (k a s1) as [[o' s2] r]. destruct H3 as [H3 [H4 H5]]. split; [apply Forall_app; now split|]. split; [lia|exact H5].
Qed.
Lemma ok_weaken {A} s (m : P A) (Q Q' : A -> Z -> Prop) : ok s m Q -> (forall a s', lo <= s' <= L + 2 ^ 40 -> Q a s' -> Q' a s') -> ok s m Q'.
Proof. unfold ok. destruct (m s) as [[o s1] [a| |]]; try tauto. intros [H1 [H2 H3]] H. split; [exact H1|]. split; [exact H2|]. now apply H. Qed.
Lemma ok_ret {A} s (a : A) (Q : A -> Z -> Prop) : lo <= s <= L + 2 ^ 40 -> Q a s -> ok s (pret a) Q.
Proof. intros H1 H2. split; [constructor|]. split; [lia|exact H2]. Qed.
Lemma ok_getpos s (Q : Z -> Z -> Prop) : lo <= s <= L + 2 ^ 40 -> Q s s -> ok s getpos Q.
Proof. intros H1 H2. split; [constructor|]. split; [lia|exact H2]. Qed.
Lemma ok_setpos s p (Q : unit -> Z -> Prop) : lo <= p <= L + 2 ^ 40 -> Q tt p -> ok s (setpos p) Q.
Proof. intros H1 H2. split; [constructor|]. split; [lia|exact H2]. Qed.
Lemma ok_plift {A} s (r : res A) (Q : A -> Z -> Prop) : lo <= s <= L + 2 ^ 40 -> nf r -> (forall a, r = Ok a -> Q a s) -> ok s (plift r) Q.
Proof. intros H1 H2 H3. split; [constructor|]. split; [lia|]. destruct r; [now apply H3|exact I|now apply H2]. Qed.
Lemma ok_pw {A} s (m : W A) (Q : A -> Z -> Prop) : lo <= s <= L + 2 ^ 40 -> nf (snd m) -> Forall D (fst m) -> (forall a, snd m = Ok a -> Q a s) -> ok s (pw m) Q.
Proof. destruct m as [o r]. intros H1 H2 H3 H4. split; [exact H3|]. split; [lia|]. cbn in *. destruct r; [now apply H4|exact I|now apply H2]. Qed.
Lemma ok_advance s n (Q : unit -> Z -> Prop) : lo <= s -> 0 <= n -> s + n <= L + 2 ^ 40 -> L < 2 ^ 62 -> Q tt (s + n) -> ok s (advance n) Q.
Proof. intros H1 H2 H3 H4 H5. unfold ok, advance. rewrite u64_id by lia. split; [constructor|]. split; [lia|exact H5]. Qed.
Lemma ok_if {A} (b : bool) s (m m' : P A) Q : (b = true -> ok s m Q) -> (b = false -> ok s m' Q) -> ok s (if b then m else m') Q.
Proof. destruct b; auto. Qed.
Lemma ok_recover {A} s (m h : P A) Q : ok s m Q -> (forall s', lo <= s' <= L + 2 ^ 40 -> ok s' h Q) -> ok s (precover m h) Q.
Proof.
  intros H1 H2. unfold ok, precover in *. destruct (m s) as [[o s1] [a| |]]; try tauto. destruct H1 as [H3 [H4 _]]. specialize (H2 s1 H4).
  destruct (h s1) as [[o' s2] r]. destruct H2 as [H5 [H6 H7]]. split; [apply Forall_app; now split|]. split; [lia|exact H7].
Qed.

Variable data : bytes.
Hypothesis Hb : all_bytes data.
Hypothesis HL : len data = L.
Hypothesis Hs : L < 2 ^ 62.

Lemma ok_readat {A} (rd : bytes -> res A) s (Q : A -> Z -> Prop) : lo <= s <= L + 2 ^ 40 -> nf (bind (slice_from data s) rd) ->
  (s <= L -> forall a, rd (skipn (Z.to_nat s) data) = Ok a -> Q a s) -> ok s (readat rd data) Q.
Proof.
  intros H1 H2 H3. unfold readat. apply ok_bind, ok_getpos; [lia|]. apply ok_plift; [lia|exact H2|]. intros a E.
  destruct (Z_le_gt_dec s L); [rewrite slice_from_ok in E by lia; now apply H3|rewrite slice_from_panic in E by lia; discriminate].
Qed.
Lemma len_rest s : 0 <= s <= L -> len (skipn (Z.to_nat s) data) = L - s.
Proof. intro H. rewrite len_skipn; lia. Qed.
Lemma rest_bytes s : all_bytes (skipn (Z.to_nat s) data).
Proof. now apply all_bytes_skipn. Qed.
Lemma nf_mrf7 b : nf (MatchReadFrom7 b).
Proof. unfold MatchReadFrom7, MatchReadFrom4, MatchReadFrom3. nfb. Qed.

Definition byte_range (k : nat) (v : Z) : Prop := 0 <= v < 256 ^ Z.of_nat k.
Lemma val_range k s : 0 <= s -> s + Z.of_nat k <= L -> byte_range k (be_val (firstn k (skipn (Z.to_nat s) data))).
Proof.
  intros H1 H2. unfold byte_range. pose proof (be_val_bound (firstn k (skipn (Z.to_nat s) data)) (all_bytes_firstn _ _ (rest_bytes s))) as H.
  rewrite len_firstn in H; [exact H|]. rewrite len_rest; lia.
Qed.
Ltac read_tac spec :=
  intros H1 H2; apply ok_readat; [lia|nfm; try apply nf_mrf7|]; intros H3 a E; rewrite spec in E by apply rest_bytes;
  rewrite len_rest in E by lia;
  match type of E with (if ?x <=? ?y then _ else _) = _ => destruct (Z.leb_spec x y) as [HC|]; [|discriminate] end;
  apply ok_inj in E; subst a; apply H2; [lia|apply val_range; lia].
Lemma ok_read1 s (Q : Z -> Z -> Prop) : lo <= s <= L + 2 ^ 40 -> (s + 1 <= L -> forall v, byte_range 1 v -> Q v s) -> ok s (readat MatchReadFrom1 data) Q.
Proof. read_tac mrf1_spec. Qed.
Lemma ok_read2 s (Q : Z -> Z -> Prop) : lo <= s <= L + 2 ^ 40 -> (s + 2 <= L -> forall v, byte_range 2 v -> Q v s) -> ok s (readat MatchReadFrom2 data) Q.
Proof. read_tac mrf2_spec. Qed.
Lemma ok_read4 s (Q : Z -> Z -> Prop) : lo <= s <= L + 2 ^ 40 -> (s + 4 <= L -> forall v, byte_range 4 v -> Q v s) -> ok s (readat MatchReadFrom4 data) Q.
Proof. read_tac mrf4_spec. Qed.
Lemma ok_read7 s (Q : Z -> Z -> Prop) : lo <= s <= L + 2 ^ 40 -> (s + 7 <= L -> forall v, byte_range 7 v -> Q v s) -> ok s (readat MatchReadFrom7 data) Q.
Proof. read_tac mrf7_spec. Qed.
Lemma ok_index0 s (Q : Z -> Z -> Prop) : lo <= s <= L + 2 ^ 40 -> (s + 1 <= L -> forall v, byte_range 1 v -> Q v s) -> ok s (readat (fun d => index d 0) data) Q.
Proof.
  intros H1 H2. apply ok_readat; [lia|nfm|]. intros H3 a E. pose proof (index_all_bytes _ _ _ (rest_bytes s) E) as Ha.
  apply index_ok_inv in E as [E _]. rewrite len_rest in E by lia. apply H2; [lia|exact Ha].
Qed.
(** compressed integers: on an error the length is 5 and too few bytes are left *)
Definition comp_result (s : Z) (x : Z * Z * option bytes) : Prop :=
  let '(v, n, e) := x in 0 <= v < 2 ^ 32 /\ 1 <= n <= 5 /\ match e with None => s + n <= L | Some _ => L < s + 5 end.
Lemma comp_cases s : 0 <= s -> nf (MatchParseCompressed data s) /\ forall x, MatchParseCompressed data s = Ok x -> s < L /\ comp_result s x.
Proof.
  intro H. destruct (compressed_cases data s Hb ltac:(lia) H) as [C1 C2]. destruct (Z_lt_ge_dec s (len data)) as [Hi|Ho].
  - destruct (C1 Hi) as [b [_ [[_ E]|[[_ [H5 [e E]]]|[v [n [E [Hv [Hn [Hf _]]]]]]]]]]; rewrite E; (split; [discriminate|]); intros x X; try discriminate; injection X as <-;
      unfold comp_result; lia.
  - rewrite C2 by lia. split; [discriminate|]. discriminate.
Qed.
Lemma ok_compressed s (Q : Z * Z * option bytes -> Z -> Prop) : lo <= s <= L + 2 ^ 40 -> (s < L -> forall x, comp_result s x -> Q x s) -> ok s (compressed_at data) Q.
Proof.
  intros H1 H2. unfold compressed_at. apply ok_bind, ok_getpos; [lia|]. destruct (comp_cases s ltac:(lia)) as [N C].
  apply ok_plift; [lia|exact N|]. intros a E. destruct (C a E). now apply H2.
Qed.
Lemma err_name s v n e : MatchParseCompressed data s = Ok (v, n, Some e) -> e = err_short_compressed.
Proof.
  intro E. unfold MatchParseCompressed in E. destruct (slice_from data s); cbn [bind] in E; try discriminate.
  destruct (MatchReadFrom1 _) as [f| |]; cbn [bind] in E; try discriminate. destruct (f <? 128); try discriminate.
  destruct (f <? 192); [destruct (MatchReadFrom2 _); discriminate|]. destruct (f <? 224); [destruct (MatchReadFrom3 _); discriminate|].
  destruct (f <? 240); [destruct (MatchReadFrom4 _); discriminate|]. destruct (len data <? _); [now injection E as _ _ <-|].
  destruct (slice_from data _); cbn [bind] in E; try discriminate. destruct (MatchReadFrom4 _); discriminate.
Qed.
Hypothesis HD : D err_short_compressed.
Lemma ok_ull s (Q : Z -> Z -> Prop) : lo <= s <= L + 2 ^ 40 -> (s < L -> forall v s', s + 5 <= s' <= L + 9 -> Q v s') -> ok s (MatchUllReadComPressed data) Q.
Proof.
  intros H1 H2. unfold MatchUllReadComPressed. apply ok_bind, ok_getpos; [lia|]. destruct (comp_cases s ltac:(lia)) as [N C].
  apply ok_bind, ok_plift; [lia|exact N|]. intros [[v n] e] E. destruct (C _ E) as [Hin [Hv [Hn He]]].
  apply ok_bind, ok_advance; try lia. apply ok_bind.
  assert (Hw : forall Q' : unit -> Z -> Prop, Q' tt (s + n) -> ok (s + n) (match e with Some e => pw (say e) | None => pret tt end) Q').
  { intros Q' HQ. destruct e as [e|]; [|apply ok_ret; [lia|exact HQ]]. apply ok_pw; [lia|discriminate| |].
    - cbn. constructor; [|constructor]. now rewrite (err_name s v n e E).
    - intros [] _. exact HQ. }
  apply Hw. cbv zeta. apply ok_bind, ok_getpos; [lia|]. apply ok_bind, ok_plift; [lia|apply nf_slice_from|]. intros b1 _.
  apply ok_bind, ok_plift; [lia|apply nf_slice_from|]. intros b2 _. apply ok_bind, ok_plift; [lia|nfm|]. intros low _.
  apply ok_bind, ok_advance; try lia. apply ok_ret; [lia|]. apply H2; [lia|]. destruct e; lia.
Qed.
Lemma ok_andthen s m k Q : ok s m (fun e s' => match e with Some e => Q (Some e) s' | None => ok s' k Q end) -> ok s (andthen m k) Q.
Proof.
  intro H. unfold andthen. apply ok_bind. eapply ok_weaken; [exact H|]. intros [e|] s' Hs' HQ; [apply ok_ret; [lia|exact HQ]|exact HQ].
Qed.
Lemma ok_dropped {A} s (m : P A) (Q : option bytes -> Z -> Prop) : ok s m (fun _ s' => Q None s') -> ok s (dropped m) Q.
Proof. intro H. unfold dropped. apply ok_bind. eapply ok_weaken; [exact H|]. intros a s' Hs' HQ. apply ok_ret; [lia|exact HQ]. Qed.

Lemma index_loop n : forall fuel i pos, 0 <= i -> 0 <= pos -> pos + 2 * (n - i) <= L -> (Z.to_nat (n - i) < fuel)%nat ->
  exists p, ParseIndex_loop fuel data i n pos = Ok p /\ pos <= p <= Z.max pos L.
Proof.
  induction fuel as [|f IH]; intros i pos Hi Hp Hl Hf; [lia|]. cbn [ParseIndex_loop]. destruct (Z.ltb_spec i n); [|exists pos; split; [reflexivity|lia]].
  rewrite slice_from_ok by lia. cbn [bind]. rewrite mrf2_spec by apply rest_bytes. rewrite len_rest by lia. replace (2 <=? L - pos) with true by lia. cbn [bind].
  rewrite u64_id by lia. destruct (IH (i + 1) (pos + 2)) as [p [E Hr]]; try lia. exists p. split; [exact E|lia].
Qed.
Lemma ok_index comp s (Q : option bytes -> Z -> Prop) : lo <= s <= L + 2 ^ 40 -> (forall e, Q (Some e) s) -> (forall s', s <= s' <= Z.max s L -> Q None s') -> ok s (index_at comp data) Q.
Proof.
  intros H1 H2 H3. unfold index_at. apply ok_bind, ok_getpos; [lia|]. apply ok_bind.
  assert (HX : nf (ParseIndex comp data s) /\ forall p e, ParseIndex comp data s = Ok (p, e) -> match e with Some _ => True | None => s <= p <= Z.max s L end).
  { unfold ParseIndex. destruct comp; [|split; [discriminate|intros p e X; injection X as <- <-; lia]]. rewrite u64_id by lia.
    destruct (Z.ltb_spec (len data) (s + 4)) as [|H4]; [split; [discriminate|intros p e X; injection X as <- <-; exact I]|].
    rewrite slice_from_ok by lia. cbn [bind]. rewrite mrf2_spec by apply rest_bytes. rewrite len_rest by lia. replace (2 <=? L - s) with true by lia. cbn [bind].
    pose proof (val_range 2 s ltac:(lia) ltac:(lia)) as Hn. unfold byte_range in Hn. set (n := be_val _) in *. clearbody n. change (256 ^ Z.of_nat 2) with 65536 in Hn.
    cbv zeta. rewrite (u64_id (s + 2)) by lia. rewrite slice_from_ok by lia. cbn [bind]. rewrite mrf2_spec by apply rest_bytes. rewrite len_rest by lia. replace (2 <=? L - (s + 2)) with true by lia. cbn [bind].
    rewrite (u64_id (s + 2 + 2)) by lia. rewrite (u64_id (s + 2 + 2 + n * 2)) by lia.
    destruct (Z.ltb_spec (len data) (s + 2 + 2 + n * 2)) as [|H5]; [split; [discriminate|intros p e X; injection X as <- <-; exact I]|].
    destruct (index_loop n (S (List.length data)) 0 (s + 2 + 2)) as [p [E Hr]]; try lia; [unfold len in HL, H5; lia|].
    rewrite E. cbn [bind]. split; [discriminate|]. intros p' e X. injection X as <- <-. lia. }
  destruct HX as [N C]. apply ok_plift; [lia|exact N|]. intros [p e] E. specialize (C p e E). destruct e as [e|]; [apply ok_ret; [lia|apply H2]|].
  apply ok_bind, ok_setpos; [lia|]. apply ok_ret; [lia|]. now apply H3.
Qed.
Lemma ok_insert short s (Q : option bytes -> Z -> Prop) : lo <= s <= L + 2 ^ 40 -> (s < L -> forall e, Q (Some e) s) -> (s < L -> forall s', s < s' <= L + 2 ^ 32 -> Q None s') -> ok s (insert_at short data) Q.
Proof.
  intros H1 H2 H3. unfold insert_at. apply ok_bind, ok_getpos; [lia|]. apply ok_bind.
  assert (HX : nf (snd (ParseInsertRecord short data s)) /\ Forall D (fst (ParseInsertRecord short data s)) /\
    forall p e, snd (ParseInsertRecord short data s) = Ok (p, e) -> s < L /\ match e with Some _ => True | None => s < p <= L + 2 ^ 32 end).
  { unfold ParseInsertRecord.
    assert (HA : forall r : res Z, (r = Panic \/ exists s1, r = Ok s1 /\ s <= s1 <= s + 2 /\ (short = true \/ s + 2 <= L)) ->
      r = (if short then Ok s else d <- slice_from data s ;; _ <- MatchReadFrom2 d ;; Ok (u64 (s + 2))) ->
      forall k : Z -> W (Z * option bytes), (forall s1, s <= s1 <= s + 2 -> (short = true \/ s + 2 <= L) -> nf (snd (k s1)) /\ Forall D (fst (k s1)) /\ forall p e, snd (k s1) = Ok (p, e) -> s < L /\ match e with Some _ => True | None => s < p <= L + 2 ^ 32 end) ->
      let m := wbind (wlift r) k in nf (snd m) /\ Forall D (fst m) /\ forall p e, snd m = Ok (p, e) -> s < L /\ match e with Some _ => True | None => s < p <= L + 2 ^ 32 end).
    { intros r [->|[s1 [-> [Hr1 Hr2]]]] _ k Hk m; unfold m; cbn.
      - split; [discriminate|]. split; [constructor|]. discriminate.
      - specialize (Hk s1 Hr1 Hr2). destruct (k s1) as [o r]. exact Hk. }
    eapply HA; [|reflexivity|].
    { destruct short; [right; exists s; split; [reflexivity|split; [lia|now left]]|].
      destruct (Z_le_gt_dec s L); [rewrite slice_from_ok by lia; cbn [bind]|rewrite slice_from_panic by lia; now left].
      rewrite mrf2_spec by apply rest_bytes. rewrite len_rest by lia. destruct (Z.leb_spec 2 (L - s)); cbn [bind]; [|now left].
      rewrite u64_id by lia. right. eexists. split; [reflexivity|]. split; [lia|]. right. lia. }
    clear HA. intros s1 Hs1 Hsh. destruct (comp_cases s1 ltac:(lia)) as [N C].
    destruct (MatchParseCompressed data s1) as [[[v n] e]| |] eqn:E; cbn [wlift wbind fst snd app]; [|split; [discriminate|split; [constructor|discriminate]]|now destruct N].
    destruct (C _ eq_refl) as [Hin [Hv [Hn He]]].
    destruct e as [e|]; [cbn; split; [discriminate|]; split; [constructor|]; intros p e' X; injection X as <- <-; lia|].
    cbv zeta. rewrite u64_id by lia. destruct (Z.ltb_spec (len data) (s1 + n)); [cbn; split; [discriminate|]; split; [constructor|]; intros p e' X; injection X as <- <-; lia|].
    assert (Hsh2 : 0 <= Z.shiftr v 1 < 2 ^ 31) by (rewrite Z.shiftr_div_pow2 by lia; change (2 ^ 1) with 2; lia).
    destruct (Z.land v 1 =? 0).
    - cbn. split; [discriminate|]. split; [constructor|]. intros p e' X. injection X as <- <-. rewrite u64_id by lia. lia.
    - destruct (slice_from data (s1 + n)) as [d| |] eqn:Ed; cbn [wlift wbind fst snd app]; [|split; [discriminate|split; [constructor|discriminate]]|now destruct (nf_slice_from data (s1 + n))].
      destruct (MatchReadFrom1 d) as [b| |] eqn:Em; cbn [wlift wbind fst snd app]; [|split; [discriminate|split; [constructor|discriminate]]|now destruct (proj1 (nf_mrf d))].
      rewrite (u64_id (s1 + n + 1)) by lia. destruct (comp_cases (s1 + n + 1) ltac:(lia)) as [N2 C2].
      destruct (MatchParseCompressed data (s1 + n + 1)) as [[[v2 n2] e2]| |] eqn:E2; cbn [wlift wbind fst snd app]; [|split; [discriminate|split; [constructor|discriminate]]|now destruct N2].
      destruct (C2 _ eq_refl) as [Hin2 [Hv2 [Hn2 He2]]]. rewrite (u64_id (s1 + n + 1 + n2)) by lia.
      destruct (comp_cases (s1 + n + 1 + n2) ltac:(lia)) as [N3 C3].
      assert (Hw : forall e s v n, MatchParseCompressed data s = Ok (v, n, e) -> exists o, (match e with Some e => say e | None => wret tt end : W unit) = (o, Ok tt) /\ Forall D o).
      { intros e' s' v' n' E'. destruct e' as [e'|]; [|exists []; split; [reflexivity|constructor]]. exists [e']. split; [reflexivity|]. constructor; [|constructor]. now rewrite (err_name _ _ _ _ E'). }
      destruct (Hw e2 _ _ _ E2) as [o2 [Eo2 Ho2]]. rewrite Eo2. cbn [wbind fst snd app].
      destruct (MatchParseCompressed data (s1 + n + 1 + n2)) as [[[v3 n3] e3]| |] eqn:E3; cbn [wlift wbind fst snd app]; [|split; [discriminate|split; [rewrite ?app_nil_r; exact Ho2|discriminate]]|now destruct N3].
      destruct (C3 _ eq_refl) as [Hin3 [Hv3 [Hn3 He3]]].
      destruct (Hw e3 _ _ _ E3) as [o3 [Eo3 Ho3]]. rewrite Eo3. cbn [wbind wret fst snd app]. rewrite (u64_id (s1 + n + 1 + n2 + n3)) by lia.
      rewrite u64_id by lia. split; [discriminate|]. split; [rewrite ?app_nil_r; try (apply Forall_app; split); assumption|]. intros p e' X. injection X as <- <-. lia. }
  destruct HX as [N [HO C]]. apply ok_pw; [lia|exact N|exact HO|]. intros [p e] E. destruct (C p e E) as [Hlt HC]. destruct e as [e|]; [apply ok_ret; [lia|now apply H2]|].
  apply ok_bind, ok_setpos; [lia|]. apply ok_ret; [lia|]. apply H3; lia.
Qed.

(** * The handlers *)
Ltac br := unfold byte_range in *; change (256 ^ Z.of_nat 1) with 256 in *; change (256 ^ Z.of_nat 2) with 65536 in *; change (256 ^ Z.of_nat 4) with 4294967296 in *; change (256 ^ Z.of_nat 7) with 72057594037927936 in *.
Ltac lb := br; lia.
Notation any := (fun _ _ => True).
Ltac rd l := apply ok_bind; apply l; [lb|]; let H := fresh "HR" in let v := fresh "v" in let Hv := fresh "Hv" in intros H v Hv.
Ltac adv := apply ok_bind; apply ok_advance; [lb|lb|lb|assumption|].
Ltac comp := let H := fresh "HR" in let v := fresh "v" in let n := fresh "n" in let e := fresh "e" in let Hv := fresh "Hv" in let Hn := fresh "Hn" in let He := fresh "He" in
  apply ok_bind; apply ok_compressed; [lb|]; intros H [[v n] e] [Hv [Hn He]].
Ltac fin := apply ok_ret; [lb|exact I].

Lemma ok_nbytes s t : lo <= s <= L -> ok s (mlogNBytes data t) any.
Proof.
  intro H. unfold mlogNBytes. rd ok_read2. adv. apply ok_if; intros _.
  - comp. destruct e as [e|]; [fin|]. pose proof (size_range v0). adv. adv. fin.
  - comp. adv. fin.
Qed.
Lemma ok_secdel s : lo <= s <= L -> ok s (mlogRecSecDeleteMark data) any.
Proof. intro H. unfold mlogRecSecDeleteMark. rd ok_read1. adv. rd ok_read2. apply ok_advance; first [exact I|lb]. Qed.
Lemma ok_undoinit s : lo <= s <= L -> ok s (mlogUndoInit data) any.
Proof. intro H. unfold mlogUndoInit. comp. destruct e; [fin|]. adv. fin. Qed.
Lemma ok_hdrreuse s : lo <= s <= L -> ok s (mlogUndoHdrReuse data) any.
Proof. intro H. unfold mlogUndoHdrReuse. apply ok_bind, ok_ull; [lb|]. intros _ v s' Hs'. fin. Qed.
Lemma ok_hdrcreate s : lo <= s <= L -> ok s (mlogUndoHdrCreate data) any.
Proof. intro H. unfold mlogUndoHdrCreate. comp. pose proof (size_range v). adv. adv. fin. Qed.
Lemma ok_writestring s : lo <= s <= L -> ok s (mlogWriteString data) any.
Proof. intro H. unfold mlogWriteString. rd ok_read2. adv. rd ok_read2. adv. apply ok_advance; first [exact I|lb]. Qed.
Lemma ok_fileop s t : lo <= s <= L -> ok s (mlogFileOp data t) any.
Proof.
  intro H. unfold mlogFileOp. apply ok_bind. apply ok_weaken with (Q := fun _ s' => s <= s' <= L).
  - apply ok_if; intros _; [|apply ok_ret; lia]. rd ok_read4. apply ok_advance; lb.
  - intros _ s' _ Hs'. rd ok_read2. adv. apply ok_advance; first [exact I|lb].
Qed.
Lemma ok_recinsert s t : lo <= s <= L -> ok s (mlogRecInsert data t) any.
Proof.
  intro H. unfold mlogRecInsert. apply ok_andthen, ok_index; [lb|intros; exact I|]. intros s' Hs'.
  apply ok_insert; [lb|intros; exact I|]. intros _ s2 Hs2. exact I.
Qed.
Lemma ok_clustdel s t : lo <= s <= L -> ok s (mlogRecClustDeleteMark data t) any.
Proof.
  intro H. unfold mlogRecClustDeleteMark. apply ok_andthen, ok_index; [lb|intros; exact I|]. intros s' Hs'.
  rd ok_read1. adv. rd ok_read1. adv. comp. destruct e; [fin|]. adv. rd ok_read7. adv. apply ok_bind, ok_ull; [lb|]. intros _ v3 s3 Hs3.
  rd ok_read2. adv. fin.
Qed.
Lemma ok_updatefields : forall fuel i n s, lo <= s <= L + 2 ^ 33 -> (Z.to_nat (L - s) < fuel)%nat -> ok s (updateFields fuel data i n) any.
Proof.
  induction fuel as [|f IH]; intros i n s H Hf; [lia|]. cbn [updateFields]. apply ok_if; intros _; [|fin].
  comp. destruct e; [fin|]. adv. comp. destruct e; [fin|]. adv. adv. apply IH; lia.
Qed.
Lemma ok_updateinplace s t : lo <= s <= L -> ok s (mlogRecUpdateInPlace data t) any.
Proof.
  intro H. unfold mlogRecUpdateInPlace. apply ok_recover; [|intros s' Hs'; fin].
  apply ok_andthen, ok_index; [lb|intros; exact I|]. intros s' Hs'.
  rd ok_read1. adv. comp. destruct e; [fin|]. adv. apply ok_bind, ok_getpos; [lb|]. apply ok_if; intros _; [fin|].
  rd ok_read7. adv. apply ok_bind, ok_ull; [lb|]. intros _ v3 s3 Hs3. rd ok_read2. adv. rd ok_read1. adv. comp. destruct e; [fin|]. adv.
  apply ok_updatefields; [lb|]. unfold len in HL. lb.
Qed.
Lemma ok_recdelete s t : lo <= s <= L -> ok s (mlogRecDelete data t) any.
Proof. intro H. unfold mlogRecDelete. apply ok_andthen, ok_index; [lb|intros; exact I|]. intros s' Hs'. rd ok_read2. adv. fin. Qed.
Lemma ok_listdelete s t : lo <= s <= L -> ok s (mlogListDelete data t) any.
Proof. intro H. unfold mlogListDelete. apply ok_andthen, ok_index; [lb|intros; exact I|]. intros s' Hs'. rd ok_read2. adv. fin. Qed.
Lemma ok_copyrecords : forall fuel e s, lo <= s <= L + 2 ^ 33 -> (Z.to_nat (L - s) < fuel)%nat -> ok s (copyRecords fuel data e) any.
Proof.
  induction fuel as [|f IH]; intros e s H Hf; [lia|]. cbn [copyRecords]. apply ok_bind, ok_getpos; [lb|]. apply ok_if; intros _; [|fin].
  apply ok_andthen, ok_insert; [lb|intros; exact I|]. intros Hlt s2 Hs2. apply IH; lia.
Qed.
Lemma ok_listcopy s t : lo <= s <= L -> ok s (mlogListEndCopyCreated data t) any.
Proof.
  intro H. unfold mlogListEndCopyCreated. apply ok_andthen, ok_index; [lb|intros; exact I|]. intros s' Hs'. rd ok_read4. adv.
  apply ok_bind, ok_getpos; [lb|]. cbv zeta. apply ok_if; intros _; [fin|]. apply ok_copyrecords; [lb|]. unfold len in HL. lb.
Qed.
Lemma ok_reorganize s t : lo <= s <= L -> ok s (mlogPageReorganize data t) any.
Proof.
  intro H. unfold mlogPageReorganize. apply ok_andthen, ok_index; [lb|intros; exact I|]. intros s' Hs'. apply ok_if; intros _; [|fin].
  rd ok_read1. adv. fin.
Qed.
Lemma ok_zipnodeptr s : lo <= s <= L -> ok s (mlogZipWriteNodePtr data) any.
Proof. intro H. unfold mlogZipWriteNodePtr. rd ok_read2. adv. rd ok_read2. adv. apply ok_advance; first [exact I|lb]. Qed.
Lemma ok_zipheader s : lo <= s <= L -> ok s (mlogZipWriteHeader data) any.
Proof. intro H. unfold mlogZipWriteHeader. rd ok_index0. adv. rd ok_index0. adv. apply ok_advance; first [exact I|lb]. Qed.
Lemma ok_zipcompress s : lo <= s <= L -> ok s (mlogZipPageCompress data) any.
Proof. intro H. unfold mlogZipPageCompress. rd ok_read2. adv. rd ok_read2. adv. apply ok_advance; first [exact I|lb]. Qed.
Lemma ok_zipnodata s : lo <= s <= L -> ok s (mlogZipPageCompressNoData data) any.
Proof. intro H. unfold mlogZipPageCompressNoData. apply ok_andthen, ok_index; [lb|intros; exact I|]. intros s' Hs'. rd ok_read1. adv. fin. Qed.

(** Undo records *)
Hypothesis HD2 : D (bs "test MYSQL_TYPE_NEWDECIMAL").
Lemma parse_lines rt ty my d n x u b : Forall D (fst (ParseData rt ty my d n x u b)).
Proof.
  unfold ParseData. repeat match goal with |- context[if ?c then _ else _] => destruct c end; cbn; repeat constructor; exact HD2.
Qed.
Lemma ok_parse {B} s rt ty my d ex n x u b (k : gval * bool -> P B) Q : lo <= s <= L + 2 ^ 40 -> (forall v, ok s (k v) Q) -> ok s (pbind (pw (ParseDataCap rt ty my d ex n x u b)) k) Q.
Proof. intros H1 H2. unfold ParseDataCap. apply ok_bind, ok_pw; [lia|apply nf_parse|apply parse_lines|]. intros a _. apply H2. Qed.
Lemma ok_undokeys rt spare table : forall fields s, lo <= s <= L + 2 ^ 33 -> ok s (undoKeys rt data spare table fields) (fun r s' => s' <= L + 2 ^ 33 /\ (snd r = None \/ L < s' + 5)).
Proof.
  induction fields as [|f fs IH]; intros s H; cbn [undoKeys]; [apply ok_ret; [lia|split; [lia|now left]]|]. cbv zeta. comp. destruct e; [apply ok_ret; [lia|split; [lia|right; lia]]|]. adv.
  apply ok_bind, ok_getpos; [lb|]. apply ok_bind, ok_plift; [lb|apply nf_slice|]. intros d _. apply ok_parse; [lb|]. intros [val ?]. adv.
  apply ok_bind. eapply ok_weaken; [apply IH; lia|]. intros [kvs err] s' H1 H2. apply ok_ret; [lia|exact H2].
Qed.
Lemma ok_undocolumn rt spare table s (Q : Column + bytes -> Z -> Prop) : lo <= s <= L + 2 ^ 33 -> (forall e s', lo <= s' <= L -> L < s' + 5 \/ e = err_field -> Q (inr e) s') -> (s < L -> forall c s', s < s' <= L + 5 -> Q (inl c) s') -> ok s (undoColumn rt data spare table) Q.
Proof.
  intros H H1 H2. unfold undoColumn. comp. destruct e; [apply ok_ret; [lia|apply H1; [lia|left; lia]]|]. adv. destruct (getColumnByPos table v) as [c|]; [|apply ok_ret; [lia|apply H1; [lia|now right]]].
  comp. adv. apply ok_bind, ok_getpos; [lb|]. assert (Hn' : s + n + n0 <= L + 5) by lia. rewrite u64_id by lia. apply ok_if; intro Hc; [apply ok_ret; [lia|apply H2; lia]|].
  apply ok_bind, ok_plift; [lb|apply nf_slice_from|]. intros d _. apply ok_parse; [lb|]. intros [val bin]. adv. apply ok_ret; [lia|]. apply H2; lia.
Qed.
Lemma ok_undocolumns rt spare table : forall fuel i n s, lo <= s <= L + 2 ^ 33 -> (Z.to_nat (L - s) < fuel)%nat -> ok s (undoColumns fuel rt data spare table i n) (fun r s' => s' <= L + 2 ^ 33 /\ (snd r = None \/ L < s' + 5 \/ snd r = Some err_field)).
Proof.
  induction fuel as [|f IH]; intros i n s H Hf; [lia|]. cbn [undoColumns]. apply ok_if; intros _; [|apply ok_ret; [lia|cbn; split; [lia|now left]]]. apply ok_bind, ok_undocolumn; [lb| |].
  - intros e s' Hs' He. apply ok_ret; [lia|]. cbn. split; [lia|]. destruct He as [He| ->]; [right; left; exact He|right; right; reflexivity].
  - intros Hlt c s' Hs'. apply ok_bind. eapply ok_weaken; [apply IH; lia|]. intros [cs err] s2 H1 H2. apply ok_ret; [lia|exact H2].
Qed.
Lemma nf_mpc d p : nf (MatchParseCompressed d p).
Proof. unfold MatchParseCompressed. nfm. Qed.
Lemma nf_much d : nf (MatchUllReadMuchCompressed d).
Proof. unfold MatchUllReadMuchCompressed. nfm; try apply nf_mpc. Qed.
Lemma much_range n : 1 <= MachUllGetMuchCompressedSize n <= 10.
Proof. unfold MachUllGetMuchCompressedSize. pose proof (size_range n). pose proof (size_range (Z.shiftr n 32)). pose proof (size_range (Z.land n 4294967295)). cbv zeta. destruct (Z.shiftr n 32 =? 0); lia. Qed.
Definition undo_kind (b : Z) : Z := Z.land (Z.ldiff b TRX_UNDO_UPD_EXTERN) (TRX_UNDO_CMPL_INFO_MULT - 1).
Lemma ok_undobody rt tm db tb spare start n s : lo <= s <= L -> lo <= start <= L -> 0 <= n < 65536 ->
  (forall b, MatchReadFrom1 (skipn (Z.to_nat s) data) = Ok b -> undo_kind b = 12 -> forall table keys cols, redo_filter db tb table = true -> D (update_statement rt table keys cols)) ->
  ok s (mlogUndoInsert_body rt tm db tb data spare start n) (fun e s' => s' = start + n \/ L < s' + 5 \/ e = Some err_field).
Proof.
  intros H H1 H2 HU. unfold mlogUndoInsert_body. rewrite (u64_id (start + n)) by lia.
  assert (Hskip : forall e s', lo <= s' <= L + 2 ^ 40 -> ok s' (_ <-p setpos (start + n) ;; pret e) (fun e s' => s' = start + n \/ L < s' + 5 \/ e = Some err_field)).
  { intros e s' Hs'. apply ok_bind, ok_setpos; [lia|]. apply ok_ret; [lia|now left]. }
  apply ok_bind, ok_readat; [lia|nfm|]. intros H3 b Eb. apply ok_bind, ok_advance; try lia. cbv zeta. fold (undo_kind b).
  apply ok_bind, ok_readat; [lia|nfm; apply nf_much|]. intros H4 [no e] _. destruct e as [e|]; [now apply Hskip; lia|].
  pose proof (much_range no). adv. apply ok_bind, ok_readat; [lia|nfm; apply nf_much|]. intros H5 [id e] _. destruct e as [e|]; [now apply Hskip; lia|].
  pose proof (much_range id). adv. apply ok_bind.
  apply ok_weaken with (Q := fun _ s' => s' <= L + 100).
  { apply ok_if; intros _; [|apply ok_ret; lia]. rd ok_index0. adv. apply ok_bind, ok_ull; [lb|]. intros _ v1 s1 Hs1. apply ok_bind, ok_ull; [lb|]. intros _ v2 s2 Hs2. apply ok_ret; lia. }
  intros _ s1 Hs1 Hs1'. destruct (getTableByTableID tm id) as [table|]; [|apply Hskip; lia].
  apply ok_bind. eapply ok_weaken; [apply ok_undokeys; lia|]. intros [keys err] s2 Hs2 Hs2'. cbn [snd] in Hs2'. destruct err as [e|]; [apply ok_ret; [lia|]; destruct Hs2' as [_ [X|X]]; [discriminate|right; left; exact X]|].
  apply ok_bind. apply ok_weaken with (Q := fun e s' => s' <= L + 2 ^ 33 /\ (e = None \/ L < s' + 5 \/ e = Some err_field)).
  { apply ok_if; intro Hk; [|apply ok_ret; [lia|split; [lia|now left]]]. comp. destruct e; [apply ok_ret; [lia|split; [lia|right; left; lia]]|]. adv.
    apply ok_bind. eapply ok_weaken; [apply ok_undocolumns; [lia|unfold len in HL; lia]|]. intros [cols err] s3 Hs3 Hs3'. cbn [snd] in Hs3'. destruct err; [apply ok_ret; [lia|]; destruct Hs3' as [X [Y|Y]]; [discriminate|split; [exact X|right; exact Y]]|].
    apply ok_bind. destruct (redo_filter db tb table) eqn:Ef.
    - apply ok_pw; [lia|discriminate| |].
      + cbn. constructor; [|constructor]. apply (HU b Eb); [unfold TRX_UNDO_UPD_EXIST_REC in Hk; lia|exact Ef].
      + intros a _. apply ok_ret; [lia|split; [lia|now left]].
    - apply ok_ret; [lia|]. apply ok_ret; [lia|split; [lia|now left]]. }
  intros err s3 Hs3 Hs3'. destruct err as [e|]; [apply ok_ret; [lia|]; destruct Hs3' as [_ [X|X]]; [discriminate|right; exact X]|]. apply ok_bind, ok_getpos; [lia|]. apply ok_bind, ok_if; intro Hq.
  - apply ok_setpos; [lia|]. apply ok_ret; [lia|now left].
  - apply ok_ret; [lia|]. apply ok_ret; [lia|]. left. unfold u64 in Hq. lia.
Qed.
Lemma ok_undo_end rt tm db tb spare s : lo <= s <= L ->
  (forall b, MatchReadFrom1 (skipn (Z.to_nat (s + 2)) data) = Ok b -> undo_kind b = 12 -> forall table keys cols, redo_filter db tb table = true -> D (update_statement rt table keys cols)) ->
  ok s (mlogUndoInsert rt tm db tb data spare) (fun e s' => (exists n, MatchReadFrom2 (skipn (Z.to_nat s) data) = Ok n /\ s' = s + 2 + n) \/ L < s' + 5 \/ e = Some err_field).
Proof.
  intros H HU. unfold mlogUndoInsert. apply ok_bind, ok_readat; [lb|nfm|]. intros H3 n En.
  assert (Hn : 0 <= n < 65536 /\ 2 <= L - s).
  { rewrite mrf2_spec in En by apply rest_bytes. rewrite len_rest in En by lia.
    destruct (Z.leb_spec 2 (L - s)) as [H2|]; [|discriminate]. apply ok_inj in En. rewrite <- En. split; [|lia].
    pose proof (val_range 2 s ltac:(lia) ltac:(lia)) as Hn. change (256 ^ Z.of_nat 2) with 65536 in Hn. exact Hn. }
  rewrite En.
  apply ok_bind, ok_advance; try lia. apply ok_bind, ok_getpos; [lia|]. apply ok_recover.
  - eapply ok_weaken; [apply ok_undobody; try lia; exact HU|]. cbv beta. intros a s' _ [->|X]; [left; exists n; split; reflexivity|right; exact X].
  - intros s' Hs'. rewrite u64_id by lia. apply ok_bind, ok_setpos; [lia|]. apply ok_ret; [lia|]. left. exists n. split; reflexivity.
Qed.
Lemma ok_undo rt tm db tb spare s : lo <= s <= L ->
  (forall b, MatchReadFrom1 (skipn (Z.to_nat (s + 2)) data) = Ok b -> undo_kind b = 12 -> forall table keys cols, redo_filter db tb table = true -> D (update_statement rt table keys cols)) ->
  ok s (mlogUndoInsert rt tm db tb data spare) any.
Proof. intros H HU. eapply ok_weaken; [apply ok_undo_end; assumption|]. intros; exact I. Qed.
Lemma ok_switch rt tm db tb spare t s : lo <= s <= L ->
  (t = 20 -> forall b, MatchReadFrom1 (skipn (Z.to_nat (s + 2)) data) = Ok b -> undo_kind b = 12 -> forall table keys cols, redo_filter db tb table = true -> D (update_statement rt table keys cols)) ->
  ok s (redo_switch rt tm db tb data spare t) any.
Proof.
  intros H HU. unfold redo_switch. cbv zeta.
  repeat match goal with |- ok _ (if existsb (Z.eqb t) ?l then _ else _) _ => let E := fresh "E" in destruct (existsb (Z.eqb t) l) eqn:E end;
  try fin; try (apply ok_dropped);
  first [now apply ok_nbytes|now apply ok_secdel|now apply ok_undoinit|now apply ok_hdrreuse|now apply ok_hdrcreate|now apply ok_writestring|now apply ok_fileop|
    now apply ok_recinsert|now apply ok_clustdel|now apply ok_updateinplace|now apply ok_recdelete|now apply ok_listdelete|now apply ok_listcopy|now apply ok_reorganize|
    now apply ok_zipnodeptr|now apply ok_zipheader|now apply ok_zipcompress|now apply ok_zipnodata|
    apply ok_advance; first [exact I|lb]|
    apply ok_index; [lb|intros; exact I|intros; exact I]|
    apply ok_undo; [assumption|apply HU; cbn [existsb] in *; change MLOG_UNDO_INSERT with 20 in *; lia]].
Qed.
End Forward.

(** * One round, and the loop *)
Lemma ok_front {A B} D L lo s (m : P A) (k : A -> P B) Q o s1 a : m s = (o, s1, Ok a) -> Forall D o -> ok D L lo s1 (k a) Q -> ok D L lo s (pbind m k) Q.
Proof.
  intros E Ho H. unfold ok, pbind in *. rewrite E. destruct (k a s1) as [[o' s'] r]. destruct H as [H1 [H2 H3]]. split; [apply Forall_app; now split|]. split; assumption.
Qed.
Section Loop.
Variable D : bytes -> Prop.
Variable rt : runtime.
Variable tm : gomap Table.
Variables db tb data : bytes.
Variable spare : nat.
Hypothesis Hb : all_bytes data.
Hypothesis Hl : len data < 2 ^ 62.
Hypothesis HD : D err_short_compressed.
Hypothesis HD2 : D (bs "test MYSQL_TYPE_NEWDECIMAL").
Lemma ok_step s : 0 <= s < len data ->
  (forall table keys cols, redo_filter db tb table = true -> D (update_statement rt table keys cols)) ->
  ok D (len data) (s + 1) s (redo_step rt tm db tb data spare) (fun _ _ => True).
Proof.
  intros H HU. unfold redo_step.
  eapply ok_front with (o := []) (s1 := s).
  { unfold readat, pbind, getpos, plift. rewrite slice_from_ok by lia. cbn [bind]. rewrite mrf1_spec by now apply all_bytes_skipn. rewrite len_skipn by lia.
    replace (1 <=? _) with true by lia. reflexivity. }
  { constructor. }
  set (b := be_val _). clearbody b. eapply ok_front with (o := []) (s1 := s + 1); [unfold advance; rewrite u64_id by lia; reflexivity|constructor|].
  apply ok_bind; try lia. apply ok_getpos; try lia. apply ok_if; intros _; [apply ok_ret; try lia; exact I|]. cbv zeta.
  apply ok_if; intros _.
  - apply ok_bind; try lia. apply ok_compressed; try assumption; try reflexivity; try lia. intros H1 [[v n] e] [Hv [Hn He]].
    apply ok_bind; try lia. apply ok_advance; try lia. destruct e as [e|]; [apply ok_ret; try lia; exact I|].
    apply ok_bind; try lia. apply ok_compressed; try assumption; try reflexivity; try lia. intros H2 [[v2 n2] e2] [Hv2 [Hn2 He2]].
    apply ok_bind; try lia. apply ok_advance; try lia. destruct e2 as [e2|]; [apply ok_ret; try lia; exact I|].
    apply ok_if; intros _.
    + apply ok_bind; try lia. apply ok_setpos; try lia. apply ok_ret; try lia; exact I.
    + apply ok_switch; try assumption; try reflexivity; try lia. intros _ b0 _ _. exact HU.
  - apply ok_switch; try assumption; try reflexivity; try lia. intros _ b0 _ _. exact HU.
Qed.
Lemma ok_loop : (forall table keys cols, redo_filter db tb table = true -> D (update_statement rt table keys cols)) ->
  forall fuel s, 0 <= s <= len data + 2 ^ 40 -> (Z.to_nat (len data - s) < fuel)%nat ->
  let '(o, _, r) := redo_loop fuel rt tm db tb data spare s in Forall D o /\ r <> NoFuel.
Proof.
  intro HU. induction fuel as [|f IH]; intros s H Hf; [lia|]. cbn [redo_loop]. unfold pbind at 1, getpos.
  destruct ((i64 (i64 (len data) - i64 s) <? 5) || (u64 (len data - s) <? 5)) eqn:E; [cbn; split; [constructor|discriminate]|].
  assert (Hlt : s < len data).
  { pose proof (len_nonneg data). rewrite (i64_id (len data)), (i64_id s) in E by lia.
    destruct (Z_lt_ge_dec s (len data)); [assumption|exfalso]. 
    assert (E2 : i64 (len data - s) = len data - s).
    { unfold i64. cbv zeta. destruct (Z.eq_dec s (len data)) as [->|]; [rewrite Z.sub_diag; reflexivity|].
replace ((len data - s) mod 2 ^ 64) with (len data - s + 2 ^ 64) by (apply (Z.mod_unique _ _ (-1)); lia).
      destruct (Z.ltb_spec (len data - s + 2 ^ 64) (2 ^ 63)); lia. }
    rewrite E2 in E. lia. }
  pose proof (ok_step s ltac:(lia) HU) as HS. unfold ok in HS. unfold pbind. destruct (redo_step rt tm db tb data spare s) as [[o s'] [e| |]].
  - destruct HS as [H1 [H2 _]]. destruct e as [e|]; [cbn; rewrite app_nil_r; split; [exact H1|discriminate]|].
    specialize (IH s' ltac:(lia) ltac:(lia)). destruct (redo_loop f rt tm db tb data spare s') as [[o' s''] r]. cbn [app]. destruct IH as [H3 H4]. split; [apply Forall_app; now split|exact H4].
  - cbn. destruct HS as [H1 _]. split; [exact H1|discriminate].
  - destruct HS as [_ [_ []]].
Qed.
End Loop.
