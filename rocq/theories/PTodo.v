(** Lemmas about the listing of undo pages. *)
From Coq Require Import ZifyBool.
From Verif Require Import GoBase Utils Ibdata Todo SpecInno SpecText SpecSql SpecRecord SpecPage SpecTodo PBase PWire PValue PText PPage PSql PRedo PFile.
Local Open Scope list_scope.

(** The part of the listing after the headers *)
Definition undo_tail (d : bytes) (log_start : Z) : W unit :=
  let tmp_pos := u64 (log_start - 38) in
  d1 <-w wlift (slice_from d tmp_pos) ;; DataLen <-w wlift (MatchReadFrom2 d1) ;;
  let tmp_pos := u64 (tmp_pos + 2) in
  let StartPos := tmp_pos in
  _ <-w say (fmt_d DataLen ++ bs " " ++ fmt_d StartPos) ;;
  d1 <-w wlift (slice_from d tmp_pos) ;; _ <-w wlift (MatchReadFrom1 d1) ;;
  let tmp_pos := u64 (tmp_pos + 1) in
  d1 <-w wlift (slice_from d tmp_pos) ;;
  '(UndoNo, _) <-w wlift (MatchUllReadMuchCompressed d1) ;;
  let tmp_pos := u64 (tmp_pos + MachUllGetMuchCompressedSize UndoNo) in
  d1 <-w wlift (slice_from d tmp_pos) ;;
  '(TableId, _) <-w wlift (MatchUllReadMuchCompressed d1) ;;
  say (bs "table id is " ++ bs " " ++ fmt_d TableId).

Definition undo_lines_of (d : bytes) : list bytes :=
  map (fun f : string * Z * nat => let '(name, off, k) := f in bs "the " ++ bs name ++ bs " is " ++ bs " " ++ fmt_d (field d (off - 38) k)) undo_fields.

Lemma at1 d p : all_bytes d -> 0 <= p -> p + Z.of_nat 1 <= len d -> MatchReadFrom1 (skipn (Z.to_nat p) d) = Ok (field d p 1).
Proof. field_read mrf1_app. Qed.
Lemma wlift_ok {A B} (a : A) (k : A -> W B) : wbind (wlift (Ok a)) k = k a.
Proof. unfold wlift, wbind. now destruct (k a). Qed.
Lemma say_then {B} l (k : unit -> W B) : wbind (say l) k = (l :: fst (k tt), snd (k tt)).
Proof. unfold say, wbind. now destruct (k tt). Qed.

Ltac wstep :=
  rewrite slice_from_ok by lia; rewrite wlift_ok;
  first [rewrite at8 by (try assumption; lia) | rewrite at2 by (try assumption; lia) | rewrite at1 by (try assumption; lia)]; rewrite wlift_ok;
  unfold say_is at 1; rewrite say_then.
Lemma undo_split d : all_bytes d -> len d = 16346 ->
  ParseUndoPageHeader d = (undo_lines_of d ++ fst (undo_tail d (field d 66 2)), snd (undo_tail d (field d 66 2))).
Proof.
  intros Hb Hl. unfold ParseUndoPageHeader.
  rewrite at2_0 by (try assumption; lia). rewrite wlift_ok. unfold say_is at 1. rewrite say_then. cbn beta.
  do 13 (wstep; cbn beta). fold (undo_tail d (field d 66 2)).
  destruct (undo_tail d (field d 66 2)) as [o r]. reflexivity.
Qed.

Lemma field_lines p : page_image p -> Forall2 (field_line p) undo_fields (undo_lines_of (skipn (Z.to_nat 38) p)).
Proof.
  intros _. unfold undo_lines_of.
  assert (H : Forall (fun f : string * Z * nat => 38 <= snd (fst f)) undo_fields) by (unfold undo_fields; repeat apply Forall_cons; try apply Forall_nil; cbn [fst snd]; lia).
  induction H as [|[[name off] k] fs Ho Hfs IH]; cbn [map]; [apply Forall2_nil|]. apply Forall2_cons; [|exact IH]. cbn [fst snd] in Ho.
  unfold field_line. rewrite field_skip by lia. replace (38 + (off - 38)) with off by lia.
  eexists. split; [apply fmt_d_spec|]. rewrite (txt_bs name). reflexivity.
Qed.

Lemma tail_start_low d s : 0 <= s < 38 -> len d = 16346 -> undo_tail d s = ([], Panic).
Proof.
  intros Hs Hl. unfold undo_tail.
  assert (E : u64 (s - 38) = s - 38 + 2 ^ 64) by (unfold u64; rewrite <- (Z.mod_small (s - 38 + 2 ^ 64) (2 ^ 64)) by lia; rewrite <- (Z_mod_plus_full (s - 38) 1); f_equal; lia).
  rewrite E, slice_from_panic by lia. reflexivity.
Qed.

Lemma u64_small x : 0 <= x < 2 ^ 64 -> u64 x = x.
Proof. intro H. unfold u64. apply Z.mod_small; exact H. Qed.

Lemma read_much n rest : 0 <= n < 2 ^ 64 -> len (enc_much_compressed n ++ rest) < 2 ^ 63 -> MatchUllReadMuchCompressed (enc_much_compressed n ++ rest) = Ok (n mod 2 ^ 32, None).
Proof.
  intros Hn Hl. destruct (Z.ltb_spec n (2 ^ 32)) as [L|L]; [|apply much_read_large; [lia|exact Hl]]. rewrite Z.mod_small by lia. apply much_read_small; [lia|].
  unfold enc_much_compressed in Hl. now replace (n <? 2 ^ 32) with true in Hl by lia.
Qed.
(** [next] is where the reader looks for the table: behind the encoding of the
    low word of the undo number, at [behind]. *)
Lemma tail_record d s next ty un behind tb rest m : 38 <= s < 2 ^ 16 -> 0 <= next < 2 ^ 16 -> 0 <= un < 2 ^ 64 -> 0 <= tb < 2 ^ 64 ->
  len d = 16346 -> s - 38 <= len d -> skipn (Z.to_nat (s - 38)) d = be 2 next ++ [ty] ++ enc_much_compressed un ++ behind ->
  m = len (enc_compressed (un mod 2 ^ 32)) -> skipn (Z.to_nat m) (enc_much_compressed un ++ behind) = enc_much_compressed tb ++ rest -> m <= len (enc_much_compressed un ++ behind) ->
  undo_tail d s = ([fmt_d next ++ bs " " ++ fmt_d (s - 36); bs "table id is " ++ bs " " ++ fmt_d (tb mod 2 ^ 32)], Ok tt).
Proof.
  intros Hs Hn Hu Ht Hl Hin E -> Em Lm. unfold undo_tail. rewrite (u64_small (s - 38)) by lia.
  assert (L : len (skipn (Z.to_nat (s - 38)) d) = len d - (s - 38)) by (rewrite len_skipn; lia).
  rewrite E in L. rewrite 2 len_app, len_be, len_cons in L. change (len []) with 0 in L.
  pose proof (len_nonneg rest). pose proof (len_nonneg (enc_much_compressed un ++ behind)). pose proof (len_nonneg (enc_much_compressed tb)). pose proof (len_nonneg (enc_compressed (un mod 2 ^ 32))).
  rewrite slice_from_ok by lia. rewrite wlift_ok, E.
  destruct (C07_lemma next ([ty] ++ enc_much_compressed un ++ behind)) as (_ & R2 & _).
  rewrite R2 by lia. rewrite wlift_ok. rewrite (u64_small (s - 38 + 2)) by lia. replace (s - 38 + 2) with (s - 36) by lia.
  rewrite say_then.
  assert (E1 : skipn (Z.to_nat (s - 36)) d = [ty] ++ enc_much_compressed un ++ behind).
  { replace (Z.to_nat (s - 36)) with (Z.to_nat (s - 38) + 2)%nat by lia. rewrite <- skipn_skipn, E. reflexivity. }
  assert (E2 : skipn (Z.to_nat (s - 35)) d = enc_much_compressed un ++ behind).
  { replace (Z.to_nat (s - 35)) with (Z.to_nat (s - 36) + 1)%nat by lia. rewrite <- skipn_skipn, E1. reflexivity. }
  rewrite slice_from_ok by lia. rewrite wlift_ok, E1. cbn [app]. rewrite mrf1_cons, wlift_ok.
  rewrite (u64_small (s - 36 + 1)) by lia. replace (s - 36 + 1) with (s - 35) by lia.
  rewrite slice_from_ok by lia. rewrite wlift_ok, E2.
  pose proof (Z.mod_pos_bound un (2 ^ 32) ltac:(lia)) as M. pose proof (much_size_small (un mod 2 ^ 32) M) as S1.
  assert (S0 : enc_much_compressed (un mod 2 ^ 32) = enc_compressed (un mod 2 ^ 32)) by (unfold enc_much_compressed; destruct (Z.ltb_spec (un mod 2 ^ 32) (2 ^ 32)); [reflexivity|lia]).
  rewrite read_much by (try assumption; lia). rewrite wlift_ok, S1, S0.
  rewrite (u64_small (s - 35 + _)) by lia.
  rewrite slice_from_ok by lia. rewrite wlift_ok.
  assert (E3 : skipn (Z.to_nat (s - 35 + len (enc_compressed (un mod 2 ^ 32)))) d = enc_much_compressed tb ++ rest).
  { replace (Z.to_nat (s - 35 + len (enc_compressed (un mod 2 ^ 32)))) with (Z.to_nat (s - 35) + Z.to_nat (len (enc_compressed (un mod 2 ^ 32))))%nat by lia.
    rewrite <- skipn_skipn, E2. exact Em. }
  assert (L3 : len (enc_much_compressed tb ++ rest) < 2 ^ 63) by (rewrite <- Em, len_skipn by lia; lia).
  rewrite E3, read_much by assumption. rewrite wlift_ok. reflexivity.
Qed.

Lemma parse_room d pos : all_bytes d -> len d < 2 ^ 63 -> 0 <= pos -> pos + 5 <= len d ->
  exists v n, MatchParseCompressed d pos = Ok (v, n, None) /\ 0 <= v < 2 ^ 32.
Proof.
  intros Hb Hl Hp Hr. destruct (compressed_cases d pos Hb Hl Hp) as [C _]. destruct C as (b & _ & [[T _]|[[_ [T _]]|(v & n & E & Hv & _)]]); [lia| |lia|].
  - exfalso. unfold truncated_form in T. lia.
  - eauto.
Qed.
Lemma much_room d : all_bytes d -> len d < 2 ^ 63 -> 11 <= len d ->
  exists v, MatchUllReadMuchCompressed d = Ok (v, None) /\ 0 <= v < 2 ^ 32.
Proof.
  intros Hb Hl Hr. unfold MatchUllReadMuchCompressed.
  destruct (index_total d 0) as [b Hi]; [lia|]. rewrite Hi. cbn [bind].
  destruct (negb (b =? 255)); cbn [bind].
  - destruct (parse_room d 0 Hb Hl ltac:(lia) ltac:(lia)) as (v & n & E & Hv). rewrite E. cbn [bind]. eauto.
  - destruct (parse_room d 1 Hb Hl ltac:(lia) ltac:(lia)) as (v & n & E & Hv). rewrite E. cbn [bind].
    pose proof (size_range v). destruct (parse_room d (1 + MatchGetCompressedSize v) Hb Hl ltac:(lia) ltac:(lia)) as (v' & n' & E' & Hv').
    rewrite E'. cbn [bind]. eauto.
Qed.
Lemma tail_room d s : all_bytes d -> len d = 16346 -> 38 <= s <= 16384 - 24 -> exists l1 l2, undo_tail d s = ([l1; l2], Ok tt).
Proof.
  intros Hb Hl Hs. unfold undo_tail. rewrite (u64_small (s - 38)) by lia.
  rewrite slice_from_ok by lia. rewrite wlift_ok, at2 by (try assumption; lia). rewrite wlift_ok, say_then.
  rewrite (u64_small (s - 38 + 2)) by lia. rewrite slice_from_ok by lia. rewrite wlift_ok, at1 by (try assumption; lia). rewrite wlift_ok.
  rewrite (u64_small (s - 38 + 2 + 1)) by lia. rewrite slice_from_ok by lia. rewrite wlift_ok.
  destruct (much_room (skipn (Z.to_nat (s - 38 + 2 + 1)) d)) as (v & E & Hv); [now apply all_bytes_skipn|rewrite len_skipn; lia|rewrite len_skipn; lia|].
  rewrite E, wlift_ok.
  assert (Hz : 1 <= MachUllGetMuchCompressedSize v <= 5).
  { unfold MachUllGetMuchCompressedSize. rewrite shiftr32, Z.div_small by lia. cbn. apply size_range. }
  rewrite (u64_small (s - 38 + 2 + 1 + _)) by lia. rewrite slice_from_ok by lia. rewrite wlift_ok.
  destruct (much_room (skipn (Z.to_nat (s - 38 + 2 + 1 + MachUllGetMuchCompressedSize v)) d)) as (w & E2 & Hw); [now apply all_bytes_skipn|rewrite len_skipn; lia|rewrite len_skipn; lia|].
  rewrite E2, wlift_ok. eexists _, _. reflexivity.
Qed.
