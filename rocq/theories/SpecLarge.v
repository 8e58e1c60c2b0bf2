(** Tablespaces with larger pages (innodb_page_size 32k or 64k, MySQL 5.7) and
    the blocks of 16384 bytes that such files have.  Uses none of the model's
    functions. *)
From Verif Require Import GoBase Ibdata SpecInno SpecText SpecSql SpecRecord SpecRow SpecPage SpecDict SpecTool.
Local Open Scope list_scope.
Local Open Scope Z_scope.

(** A page of [k] blocks. *)
Definition large_image (k : nat) (page : list Z) : Prop := zlen page = Z.of_nat k * 16384 /\ Forall (fun b => 0 <= b < 256) page.
Fixpoint cut_page (k : nat) (page : list Z) : list (list Z) :=
  match k with O => [] | S k => firstn (Z.to_nat 16384) page :: cut_page k (skipn (Z.to_nat 16384) page) end.
Definition blocks_of (k : nat) (ps : list (list Z)) : list (list Z) := flat_map (cut_page k) ps.

(** Which pages hold rows: as [eligible], with PAGE_FREE anywhere. *)
Definition large_leaf (deleted : bool) (page : list Z) : bool :=
  (field page 24 2 =? 17855) && (field page 64 2 =? 0) && (field page 56 8 =? 0)
  && (negb deleted || ((0 <? field page 44 2) && negb (field page 46 2 =? 0))).
(** The records of such a page, with their origins.  A record lies in the
    first block, or its origin is behind the last place where one may lie in a
    page of 16384 bytes (records across the border are not covered). *)
Definition large_holds (rt : runtime) (deleted : bool) (k : nat) (ss : list slot) (page : list Z) (records : list (Z * list sqlval)) : Prop :=
  exists compact : bool, (if compact then 128 <= nth 42 page 0 else nth 42 page 0 < 128)
    /\ (if deleted then free_chain compact page (map fst records) /\ hd_error (map fst records) = Some (field page 44 2)
        else chain compact page (infimum compact) (map fst records) (supremum compact))
    /\ Forall (fun r => 120 <= fst r <= Z.of_nat k * 16384 - 12 /\ exists fs, stored_at compact page (fst r) (map slot_layout ss) fs
         /\ row_encodes rt ss (snd r) fs /\ fst r + zlen (body fs) <= Z.of_nat k * 16384 - 8
         /\ ((fst r <= 16372 /\ fst r + zlen (body fs) <= 16376) \/ 16378 <= fst r)) records.
(** The data file: its leaves have numbers of their own, and what lies at the
    beginning of a block but not of a page is not taken for a leaf. *)
Definition large_file (rt : runtime) (deleted : bool) (k : nat) (ss : list slot) (ps : list (list Z)) (contents : list (list (Z * list sqlval))) : Prop :=
  Forall (large_image k) ps /\ Forall2 (large_holds rt deleted k ss) (filter (large_leaf deleted) ps) contents
  /\ (forall i j p q, nth_error ps i = Some p -> nth_error ps j = Some q -> large_leaf deleted p = true -> page_number p = page_number q -> i = j)
  /\ Forall (fun p => Forall (fun b => eligible deleted b = false
       /\ forall l, In l ps -> large_leaf deleted l = true -> page_number b <> page_number l) (tl (cut_page k p))) ps.

(** The rows of a page before the first record outside the first block. *)
Fixpoint before_far {A} (records : list (Z * A)) : list A :=
  match records with [] => [] | (off, a) :: r => if off <? 16378 then a :: before_far r else [] end.

(** Both files, the table, and its rows (live or deleted). *)
Definition large_input (rt : runtime) (deleted : bool) (k : nat) (d : dictionary) (sys_pages : list (list Z)) (t : table_def) (db tb : list Z)
    (ss : list slot) (pages : list (list Z)) (contents : list (list (Z * row))) : Prop :=
  stores_dictionary (blocks_of k sys_pages) d /\ consistent d /\ NoDup (map td_name (dd_tables d))
  /\ In t (dd_tables d) /\ named_as (td_name t) db tb /\ db <> [] /\ ~ In 96 db /\ ~ In 96 tb
  /\ columns_of d (td_id t) <> [] /\ Forall (fun c => ordinary c /\ readable_column c) (columns_of d (td_id t))
  /\ clustered_slots d (td_id t) ss
  /\ large_file rt deleted k ss pages (map (map (fun r => (fst r, values (users ss) (snd r)))) contents).
