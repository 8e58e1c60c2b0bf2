(** Dictionaries that fit on four pages, for the examples. *)
From Coq Require Import String ZifyBool.
From Verif Require Import GoBase Utils Ibdata Redo SpecInno SpecText SpecSql SpecRecord SpecRow SpecPage SpecDict SpecTool PBase PWire PPage PFile PDict PBuild PTool PropDict PropTool PropDrop.
Local Open Scope string_scope.
Local Open Scope list_scope.
Local Open Scope Z_scope.

Definition pages_of (d : dictionary) : list (list Z) :=
  [sys_page 8 10 11 12; built false 8 17855 1 (map rrec (map tables_fields (dd_tables d))); built false 10 17855 2 (map rrec (map columns_fields (dd_columns d)));
   built false 11 17855 3 (map rrec (map indexes_fields (dd_indexes d))); built false 12 17855 4 (map rrec (map fields_fields (dd_fields d)))].
Definition fits (fss : list (list rstored)) : bool :=
  forallb (fun fs => forallb (fun b => (0 <=? b) && (b <? 256)) (rbody fs) && (zlen (rbody fs) <? 128)) fss && (zlen (blocks false 125 (map rrec fss)) <=? 16000).
Definition in_range (k : Z) (n : Z) : bool := (0 <=? n) && (n <? 256 ^ k).
Definition storable (d : dictionary) : bool :=
  fits (map tables_fields (dd_tables d)) && fits (map columns_fields (dd_columns d)) && fits (map indexes_fields (dd_indexes d)) && fits (map fields_fields (dd_fields d))
  && forallb (fun t => in_range 8 (td_id t) && in_range 4 (td_space t)) (dd_tables d)
  && forallb (fun c => in_range 8 (cd_table c) && in_range 4 (cd_pos c) && in_range 4 (cd_mtype c) && in_range 4 (cd_prtype c) && in_range 4 (cd_len c)) (dd_columns d)
  && forallb (fun i => in_range 8 (id_table i) && in_range 8 (id_id i) && in_range 4 (id_nfields i) && in_range 4 (id_type i)) (dd_indexes d)
  && forallb (fun f => in_range 8 (fd_index f) && in_range 4 (fd_position f)) (dd_fields d).
Lemma range_of k n : in_range (Z.of_nat k) n = true -> is_num k n (RBytes (be k n)).
Proof. unfold in_range. intro H. split; [lia|reflexivity]. Qed.
Lemma all_matches {D} (record : D -> list (rstored -> Prop)) fields (p : D -> bool) defs : (forall d, p d = true -> matches (record d) (fields d)) -> forallb p defs = true ->
  Forall2 (fun d fs => matches (record d) fs) defs (map fields defs).
Proof. intros H. induction defs as [|d defs IH]; cbn [forallb map]; intro E; constructor; apply andb_prop in E as [E1 E2]; [now apply H|now apply IH]. Qed.
Lemma fits_page {D} (record : D -> list (rstored -> Prop)) number id defs fss : Forall2 (fun d fs => matches (record d) fs) defs fss -> fits fss = true -> 0 <= number < 2 ^ 32 -> 0 <= id < 2 ^ 64 ->
  let page := built false number 17855 id (map rrec fss) in page_image page /\ page_number page = number /\ index_of page = id /\ holds_records record page defs.
Proof.
  intros HM HF H1 H2. apply andb_prop in HF as [F1 F2]. apply small_checks in F1 as S. assert (L : zlen (blocks false 125 (map rrec fss)) <= 16000) by lia.
  assert (F : Forall fine (map rrec fss)) by (clear - S; induction S; cbn [map]; constructor; [now apply rrec_fine|assumption]).
  destruct (built_page false number 17855 id _ F L) as [[I1 _] [N1 [_ [X1 _]]]]; try lia. cbv zeta. split; [exact I1|]. split; [exact N1|]. split; [exact X1|]. apply holds_built; try assumption. lia.
Qed.
Lemma storable_stores d : storable d = true -> stores_dictionary (pages_of d) d.
Proof.
  unfold storable. rewrite !andb_true_iff. intros [[[[[[[A1 A2] A3] A4] A5] A6] A7] A8].
  destruct (fits_page tables_record 8 1 (dd_tables d) (map tables_fields (dd_tables d))) as [I1 [N1 [X1 HR1]]]; [|assumption|lia|lia|].
  { eapply all_matches; [|exact A5]. intros t E. cbn beta in E. rewrite !andb_true_iff in E. repeat match type of E with _ /\ _ => destruct E as [E ?] end. exists (tables_fields t), []. split; [symmetry; apply app_nil_r|].
    repeat (constructor; [first [exact I|reflexivity|apply range_of; assumption]|]). constructor. }
  destruct (fits_page columns_record 10 2 (dd_columns d) (map columns_fields (dd_columns d))) as [I2 [N2 [X2 HR2]]]; [|assumption|lia|lia|].
  { eapply all_matches; [|exact A6]. intros t E. cbn beta in E. rewrite !andb_true_iff in E. repeat match type of E with _ /\ _ => destruct E as [E ?] end. exists (columns_fields t), []. split; [symmetry; apply app_nil_r|].
    repeat (constructor; [first [exact I|reflexivity|apply range_of; assumption]|]). constructor. }
  destruct (fits_page indexes_record 11 3 (dd_indexes d) (map indexes_fields (dd_indexes d))) as [I3 [N3 [X3 HR3]]]; [|assumption|lia|lia|].
  { eapply all_matches; [|exact A7]. intros t E. cbn beta in E. rewrite !andb_true_iff in E. repeat match type of E with _ /\ _ => destruct E as [E ?] end. exists (firstn 9 (indexes_fields t)), [RBytes (be 4 50)]. split; [reflexivity|].
    repeat (constructor; [first [exact I|reflexivity|apply range_of; assumption]|]). constructor. }
  destruct (fits_page fields_record 12 4 (dd_fields d) (map fields_fields (dd_fields d))) as [I4 [N4 [X4 HR4]]]; [|assumption|lia|lia|].
  { eapply all_matches; [|exact A8]. intros t E. cbn beta in E. rewrite !andb_true_iff in E. repeat match type of E with _ /\ _ => destruct E as [E ?] end. exists (fields_fields t), []. split; [symmetry; apply app_nil_r|].
    repeat (constructor; [first [exact I|reflexivity|apply range_of; assumption]|]). constructor. }
  unfold pages_of. set (p1 := built false 8 _ _ _) in *. set (p2 := built false 10 _ _ _) in *. set (p3 := built false 11 _ _ _) in *. set (p4 := built false 12 _ _ _) in *. clearbody p1 p2 p3 p4.
  apply pages_store; try assumption; [repeat (constructor; [assumption|]); constructor| |]; cbn [map]; congruence.
Qed.
