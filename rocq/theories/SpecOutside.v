(** REDUNDANT records with a column stored outside the record (rem0rec.cc:
    rec_set_nth_field_extern_bit_old), using none of the model's functions. *)
From Coq Require Import ZArith List Bool.
From Verif Require Import SpecInno SpecRecord.
Import ListNotations.
Open Scope Z_scope.

(** The end offsets of the columns in front of it, of the column itself with
    the bit 2^14, and of the columns behind it. *)
Definition outside_ends (front : list rstored) (b : list Z) (rest : list rstored) : list Z :=
  let e := zlen (rbody front) + zlen b in
  ends (2 ^ 15) 0 front ++ (e + 2 ^ 14) :: ends (2 ^ 15) e rest.
(** The record at [off]; [b] is what it holds of the column (a prefix of the
    value, and the reference to the rest).  Such records have end offsets of
    two bytes. *)
Definition outside_at (page : list Z) (off : Z) (front : list rstored) (b : list Z) (rest : list rstored) : Prop :=
  exists pre header post,
    page = pre ++ flat_map (be 2) (rev (outside_ends front b rest)) ++ header ++ rbody front ++ b ++ rbody rest ++ post
    /\ zlen header = 6 /\ nth 3 header 0 mod 2 = 0
    /\ off = zlen pre + 2 * (zlen front + 1 + zlen rest) + 6
    /\ zlen (rbody front) + zlen b + zlen (rbody rest) < 2 ^ 14.

(** * Several such columns *)
(** The columns of a record, each with whether it is stored outside; their end
    offsets; and the record at [off].  What is stored outside is not NULL. *)
Fixpoint marked_ends (from : Z) (ms : list (bool * rstored)) : list Z :=
  match ms with
  | [] => []
  | (o, f) :: ms' =>
    let e := from + zlen (rcontent f) in
    (if o then e + 2 ^ 14 else match f with RNull _ => e + 2 ^ 15 | RBytes _ => e end) :: marked_ends e ms'
  end.
Definition marked_at (page : list Z) (off : Z) (ms : list (bool * rstored)) : Prop :=
  exists pre header post,
    page = pre ++ flat_map (be 2) (rev (marked_ends 0 ms)) ++ header ++ rbody (map snd ms) ++ post
    /\ zlen header = 6 /\ nth 3 header 0 mod 2 = 0
    /\ off = zlen pre + 2 * zlen ms + 6
    /\ zlen (rbody (map snd ms)) < 2 ^ 14
    /\ Forall (fun m => fst m = true -> exists b, snd m = RBytes b) ms.
(** Somewhere in the record a column of fixed length comes directly behind one
    that is stored outside. *)
Definition fixed_behind (ls : list layout) (ms : list (bool * rstored)) : Prop :=
  exists i f l n, nth_error ms i = Some (true, f) /\ nth_error ls (S i) = Some l /\ l_fixed l = Some n.
