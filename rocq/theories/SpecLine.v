(** Lines: what a program sees that cuts the output at its line ends.  None of
    the model's functions is used. *)
From Coq Require Import ZArith List.
From Verif Require Import SpecInno SpecSql SpecDict SpecTool SpecToolRedo.
Import ListNotations.
Local Open Scope Z_scope.

(** The bytes that end or cut a line somewhere: NUL, LF, CR, Ctrl-Z. *)
Definition line_bytes : list Z := [0; 10; 13; 26].
Definition one_line (line : list Z) : Prop := forall c, In c line_bytes -> ~ In c line.
(** A byte of the names or values of a recovered update. *)
Definition mentions (w : update) (c : Z) : Prop :=
  In c (up_db w) \/ In c (up_tb w)
  \/ (exists col v, In (col, v) (up_old w ++ up_key w) /\ (In c (cd_name col) \/ exists s, v = SStr s /\ In c s)).
