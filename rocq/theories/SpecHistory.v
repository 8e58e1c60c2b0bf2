(** A server that runs the recovered UPDATE statements, and the history of the
    tables whose updates the log holds.  Uses none of the model's functions. *)
From Verif Require Import GoBase SpecText SpecSql SpecDict SpecTool SpecToolRedo.
Local Open Scope list_scope.

(** The rows of every table. *)
Definition contents : Type := list Z -> list Z -> list row.
Definition row_eq (r r' : row) : Prop := forall n, r n = r' n.

(** * Running statements *)
Definition text_eqb (a b : list Z) : bool := if list_eq_dec Z.eq_dec a b then true else false.
Definition value_eqb (a b : sqlval) : bool :=
  match a, b with
  | SStr s, SStr t | SBytes s, SBytes t => text_eqb s t
  | SBits m, SBits n => m =? n
  | _, _ => false      (* nothing equals NULL *)
  end.
Definition meets (conds : list (list Z * sqlval)) (r : row) : bool := forallb (fun c => value_eqb (r (fst c)) (snd c)) conds.
Definition assign (n : list Z) (v : sqlval) (r : row) : row := fun m => if text_eqb n m then v else r m.
(** [None]: not an UPDATE, or an assignment of a truth value (see C31). *)
Definition run (line : list Z) (s : contents) : option contents :=
  match read_update line with
  | Some (db, tb, sets, conds) =>
    if forallb (fun a : assignment => match snd a with [] => true | _ => false end) sets then
      Some (fun db' tb' =>
              if text_eqb db db' && text_eqb tb tb' then
                map (fun r => if meets conds r then fold_left (fun r (a : assignment) => assign (fst (fst a)) (snd (fst a)) r) sets r else r) (s db' tb')
              else s db' tb')
    else None
  | None => None
  end.
Fixpoint run_all (lines : list (list Z)) (s : contents) : option contents :=
  match lines with
  | [] => Some s
  | l :: ls => match run l s with Some s' => run_all ls s' | None => None end
  end.

(** * Histories *)
(** [key] names the columns of a table's primary key; no two rows have the
    same values in them. *)
Definition key_values (key : list Z -> list Z -> list (list Z)) (db tb : list Z) (r : row) : list sqlval := map r (key db tb).
Definition keyed (key : list Z -> list Z -> list (list Z)) (s : contents) : Prop := forall db tb, NoDup (map (key_values key db tb) (s db tb)).
(** A row was inserted or deleted; columns of a row were changed, which the log
    records; a change was rolled back, which it does not. *)
Inductive event : Type :=
| Inserted (db tb : list Z) (r : row)
| Deleted (db tb : list Z) (r : row)
| Changed (w : update) (r r' : row)
| RolledBack (db tb : list Z) (r r' : row).
Definition replaced (s s' : contents) (db tb : list Z) (old new : list row) : Prop :=
  exists l1 l2, s db tb = l1 ++ old ++ l2 /\ s' db tb = l1 ++ new ++ l2 /\ forall db' tb', (db', tb') <> (db, tb) -> s' db' tb' = s db' tb'.
Definition changed_columns (w : update) : list (list Z) := map (fun cv => cd_name (fst cv)) (up_old w).
Definition concerns (w : update) (db tb : list Z) (k : list sqlval) : Prop := up_db w = db /\ up_tb w = tb /\ map snd (up_key w) = k.
Definition step (key : list Z -> list Z -> list (list Z)) (before : list update) (s : contents) (e : event) (s' : contents) : Prop :=
  match e with
  | Inserted db tb r => replaced s s' db tb [] [r] /\ ~ In (key_values key db tb r) (map (key_values key db tb) (s db tb))
  | Deleted db tb r => replaced s s' db tb [r] []
  | Changed w r r' => replaced s s' (up_db w) (up_tb w) [r] [r']
      /\ map (fun cv => cd_name (fst cv)) (up_key w) = key (up_db w) (up_tb w) /\ map snd (up_key w) = key_values key (up_db w) (up_tb w) r
      /\ map snd (up_old w) = map r (changed_columns w)
      /\ (forall n, In n (changed_columns w) -> ~ In n (key (up_db w) (up_tb w))) /\ (forall n, ~ In n (changed_columns w) -> r' n = r n)
  | RolledBack db tb r r' => replaced s s' db tb [r] [r'] /\ key_values key db tb r' = key_values key db tb r
      /\ forall n, r' n <> r n -> exists w, In w before /\ concerns w db tb (key_values key db tb r) /\ In n (changed_columns w)
  end.
Definition logged (e : event) : list update := match e with Changed w _ _ => [w] | _ => [] end.
Inductive history (key : list Z -> list Z -> list (list Z)) : list update -> contents -> list event -> contents -> Prop :=
| hist_nil before s : history key before s [] s
| hist_cons before s e s' es s'' : step key before s e s' -> history key (before ++ logged e) s' es s'' -> history key before s (e :: es) s''.
(** The row was in its table all the time. *)
Definition stays (key : list Z -> list Z -> list (list Z)) (db tb : list Z) (r : row) (es : list event) : Prop :=
  Forall (fun e => match e with Inserted db' tb' r' | Deleted db' tb' r' => (db', tb') <> (db, tb) \/ key_values key db tb r' <> key_values key db tb r | _ => True end) es.
(** No column of a row was changed twice. *)
Definition changed_once (ws : list update) : Prop :=
  forall a w b w' c n, ws = a ++ w :: b ++ w' :: c -> concerns w' (up_db w) (up_tb w) (map snd (up_key w)) ->
    In n (changed_columns w) -> ~ In n (changed_columns w').
(** What one wants of the rows that stayed. *)
Definition restored (key : list Z -> list Z -> list (list Z)) (es : list event) (s s' : contents) : Prop :=
  (forall db tb r, In r (s db tb) -> stays key db tb r es ->
     (exists r', In r' (s' db tb) /\ row_eq r r') /\ (forall r', In r' (s' db tb) -> key_values key db tb r' = key_values key db tb r -> row_eq r r'))
  /\ (Forall (fun e => match e with Inserted _ _ _ | Deleted _ _ _ => False | _ => True end) es -> forall db tb, Forall2 row_eq (s db tb) (s' db tb)).
