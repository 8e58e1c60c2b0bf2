(** Encrypted and page-compressed tablespaces: what becomes of a page on disk.
    An independent specification (fil0fil.h, os0file.cc of MySQL 5.7), using
    none of the model's functions. *)
From Coq Require Import ZArith List.
From Verif Require Import SpecInno SpecRecord SpecPage.
Import ListNotations.
Open Scope Z_scope.

(** FIL_PAGE_COMPRESSED, FIL_PAGE_ENCRYPTED, FIL_PAGE_COMPRESSED_AND_ENCRYPTED,
    FIL_PAGE_ENCRYPTED_RTREE *)
Definition sealed_types : list Z := [14; 15; 16; 17].
Definition sealed_page (page : list Z) : bool := existsb (Z.eqb (field page 24 2)) sealed_types.
(** The checksum, the page number, the neighbours and the LSN stay, the type is
    one of the four, and the rest is for those who have the key, or unpack it. *)
Definition seals (page sealed : list Z) : Prop :=
  page_image page /\ page_image sealed /\ firstn 24 sealed = firstn 24 page /\ sealed_page sealed = true.
