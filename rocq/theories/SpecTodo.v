(** Undo log pages (trx0undo.h, trx0rec.cc), using none of the model's
    functions, and what a listing of one says. *)
From Verif Require Import GoBase SpecInno SpecText SpecSql SpecPage.
Local Open Scope list_scope.

(** Name, offset in the page and width of the fields of the undo page header
    (at 38), of the undo segment header (at 56) and of the undo log header of
    the first log (at 86). *)
Definition undo_fields : list (string * Z * nat) :=
  [ ("TRX_UNDO_PAGE_TYPE"%string, 38 + 0, 2%nat); ("TRX_UNDO_PAGE_START"%string, 38 + 2, 2%nat);
    ("TRX_UNDO_PAGE_FREE"%string, 38 + 4, 2%nat);
    ("TRX_UNDO_STATE"%string, 56 + 0, 2%nat); ("TRX_UNDO_LAST_LOG"%string, 56 + 2, 2%nat);
    ("TRX_UNDO_TRX_ID"%string, 86 + 0, 8%nat); ("TRX_UNDO_TRX_NO"%string, 86 + 8, 8%nat);
    ("TRX_UNDO_DEL_MARKS"%string, 86 + 16, 2%nat); ("TRX_UNDO_LOG_START"%string, 86 + 18, 2%nat);
    ("TRX_UNDO_XID_EXISTS"%string, 86 + 20, 1%nat); ("TRX_UNDO_DICT_TRANS"%string, 86 + 21, 1%nat);
    ("TRX_UNDO_TABLE_ID"%string, 86 + 22, 8%nat); ("TRX_UNDO_NEXT_LOG"%string, 86 + 30, 2%nat);
    ("TRX_UNDO_PREV_LOG"%string, 86 + 32, 2%nat) ].
(** The offset in the page of the first record of the first log *)
Definition first_record (page : list Z) : Z := field page (86 + 18) 2.
(** An undo record at [off]: offset of the next record, type and flags, undo
    number, table. *)
Definition undo_rec_at (page : list Z) (off next type undo_no table : Z) : Prop :=
  exists rest, skipn (Z.to_nat off) page = be 2 next ++ [type] ++ enc_much_compressed undo_no ++ enc_much_compressed table ++ rest.

(** Lines of the listing *)
Definition field_line (page : list Z) (f : string * Z * nat) (line : list Z) : Prop :=
  let '(name, off, k) := f in
  exists t, int_text (field page off k) t /\ line = txt "the " ++ txt name ++ txt " is  " ++ t.
Definition pair_line (a b : Z) (line : list Z) : Prop :=
  exists s t, int_text a s /\ int_text b t /\ line = s ++ txt " " ++ t.
Definition table_line (n : Z) (line : list Z) : Prop :=
  exists t, int_text n t /\ line = txt "table id is  " ++ t.
