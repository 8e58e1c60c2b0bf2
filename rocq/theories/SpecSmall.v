(** System tablespaces with other page sizes (innodb_page_size, fil0fil.h and
    fsp0fsp.h).  Uses none of the model's functions. *)
From Verif Require Import GoBase SpecInno SpecRecord SpecPage SpecDict.
Local Open Scope list_scope.
Local Open Scope Z_scope.

(** Each page has its number, or zeros if it was never written; the first one
    (FSP_HDR) has number 0, and at byte 66 the place of the first free extent,
    which is no small number. *)
Definition tablespace (size : Z) (ps : list (list Z)) : Prop :=
  Forall (fun p => zlen p = size /\ Forall (fun b => 0 <= b < 256) p) ps
  /\ (forall i p, nth_error ps i = Some p -> page_number p = Z.of_nat i \/ page_number p = 0)
  /\ exists p rest, ps = p :: rest /\ 4 < index_of p.
(** The blocks of 16384 bytes that the same file has. *)
Definition same_file (ps blocks : list (list Z)) : Prop := Forall (fun b => zlen b = 16384) blocks /\ List.concat blocks = List.concat ps.
