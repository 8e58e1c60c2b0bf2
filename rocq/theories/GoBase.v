(** Go run-time notions used by the model of db-recovery.

    This file models the Go language and library facts the code rests on; it
    models no file of /repo by itself.  Each definition names the Go notion. *)
From Coq Require Export ZArith List Lia Bool.
From Coq Require Import Ascii.
From Coq Require Export String.
Export ListNotations.
Global Open Scope Z_scope.
Local Open Scope list_scope.
Close Scope string_scope.

(** Go: a []byte or string, each byte an integer in [0,256). *)
Definition bytes := list Z.

(** Go: the range of a byte value. *)
Definition is_byte (b : Z) : Prop := 0 <= b < 256.

(** Go: every element of a []byte is a byte. *)
Definition all_bytes (l : bytes) : Prop := Forall is_byte l.

(** Go: len(x). *)
Definition len {A} (l : list A) : Z := Z.of_nat (List.length l).

(** Go: wrap-around of uint64 arithmetic. *)
Definition u64 (x : Z) : Z := x mod 2 ^ 64.

(** Go: conversion to int64 (and to int, on 64-bit platforms). *)
Definition i64 (x : Z) : Z :=
  let y := x mod 2 ^ 64 in if y <? 2 ^ 63 then y else y - 2 ^ 64.

(** Go: outcome of running code: a value, a run-time panic, or (model only)
    fuel exhausted, which no theorem counts as a normal outcome. *)
Inductive res (A : Type) : Type :=
| Ok (a : A)
| Panic
| NoFuel.
Arguments Ok {A} _.
Arguments Panic {A}.
Arguments NoFuel {A}.

Definition bind {A B} (m : res A) (k : A -> res B) : res B :=
  match m with Ok a => k a | Panic => Panic | NoFuel => NoFuel end.

Notation "x <- e ;; k" := (bind e (fun x => k))
  (at level 61, e at next level, right associativity).
Notation "' p <- e ;; k" := (bind e (fun x => match x with p => k end))
  (at level 61, p pattern, e at next level, right associativity).

(** Go: code that may also print lines on standard output.  Lines printed
    before a panic stay printed. *)
Definition W (A : Type) : Type := (list bytes * res A)%type.
Definition wret {A} (a : A) : W A := ([], Ok a).
Definition wlift {A} (r : res A) : W A := ([], r).
Definition wbind {A B} (m : W A) (k : A -> W B) : W B :=
  match m with
  | (o, Ok a) => let '(o', r) := k a in (o ++ o', r)
  | (o, Panic) => (o, Panic)
  | (o, NoFuel) => (o, NoFuel)
  end.
(** Go: fmt.Println of one line. *)
Definition say (line : bytes) : W unit := ([line], Ok tt).

Notation "x <-w e ;; k" := (wbind e (fun x => k))
  (at level 61, e at next level, right associativity).
Notation "' p <-w e ;; k" := (wbind e (fun x => match x with p => k end))
  (at level 61, p pattern, e at next level, right associativity).

(** Go: code that works on a cursor through a pointer (pos *uint64).  The
    cursor survives a panic, because a deferred recover() may leave it in
    place. *)
Definition P (A : Type) : Type := Z -> (list bytes * Z * res A)%type.
Definition pret {A} (a : A) : P A := fun s => ([], s, Ok a).
Definition pbind {A B} (m : P A) (k : A -> P B) : P B := fun s =>
  match m s with
  | (o, s', Ok a) => let '(o', s'', r) := k a s' in (o ++ o', s'', r)
  | (o, s', Panic) => (o, s', Panic)
  | (o, s', NoFuel) => (o, s', NoFuel)
  end.
Definition plift {A} (r : res A) : P A := fun s => ([], s, r).
Definition pw {A} (m : W A) : P A := fun s => let '(o, r) := m in (o, s, r).
Definition getpos : P Z := fun s => ([], s, Ok s).
Definition setpos (p : Z) : P unit := fun _ => ([], p, Ok tt).
(** Go: *pos += n, on uint64. *)
Definition advance (n : Z) : P unit := fun s => ([], u64 (s + n), Ok tt).

Notation "x <-p e ;; k" := (pbind e (fun x => k))
  (at level 61, e at next level, right associativity).
Notation "' p <-p e ;; k" := (pbind e (fun x => match x with p => k end))
  (at level 61, p pattern, e at next level, right associativity).

(** Go: d[a:], panics unless 0 <= a <= len(d).  (All slices the code takes
    this way have len = cap or are only cut at the front.) *)
Definition slice_from {A} (d : list A) (a : Z) : res (list A) :=
  if (0 <=? a) && (a <=? len d) then Ok (skipn (Z.to_nat a) d) else Panic.

(** Go: d[:b] for a slice with cap(d) = len(d). *)
Definition slice_to {A} (d : list A) (b : Z) : res (list A) :=
  if (0 <=? b) && (b <=? len d) then Ok (firstn (Z.to_nat b) d) else Panic.

(** Go: d[a:b] for a slice with cap(d) = len(d). *)
Definition slice {A} (d : list A) (a b : Z) : res (list A) :=
  if (0 <=? a) && (a <=? b) && (b <=? len d)
  then Ok (firstn (Z.to_nat (b - a)) (skipn (Z.to_nat a) d)) else Panic.

(** Go: d[i]. *)
Definition index {A} (d : list A) (i : Z) : res A :=
  if (0 <=? i) && (i <? len d)
  then match nth_error d (Z.to_nat i) with Some x => Ok x | None => Panic end
  else Panic.

(** Go: d[i] = v. *)
Definition set_index {A} (d : list A) (i : Z) (v : A) : res (list A) :=
  if (0 <=? i) && (i <? len d)
  then Ok (firstn (Z.to_nat i) d ++ v :: skipn (S (Z.to_nat i)) d)
  else Panic.

(** Go: make([]uint64, n). *)
Definition zeros (n : nat) : list Z := repeat 0 n.

(** A Coq string literal as Go string bytes. *)
Fixpoint bs (s : string) : bytes :=
  match s with
  | EmptyString => []
  | String c r => Z.of_N (N_of_ascii c) :: bs r
  end.

(** Go: equality of strings. *)
Fixpoint beq (a b : bytes) : bool :=
  match a, b with
  | [], [] => true
  | x :: a', y :: b' => (x =? y) && beq a' b'
  | _, _ => false
  end.

(** Go: strconv/fmt decimal digits of a non-negative integer. *)
Fixpoint dec_aux (fuel : nat) (n : Z) (acc : bytes) : bytes :=
  match fuel with
  | O => acc
  | S f => if n <? 10 then (48 + n) :: acc
           else dec_aux f (n / 10) ((48 + n mod 10) :: acc)
  end.
Definition dec (n : Z) : bytes := dec_aux (S (Z.to_nat (Z.log2 n))) n [].

(** Go: fmt verb %d (also %v of an integer). *)
Definition fmt_d (n : Z) : bytes := if n <? 0 then 45 :: dec (- n) else dec n.

(** Go: fmt verb %02d of a non-negative integer. *)
Definition fmt_02d (n : Z) : bytes := if n <? 10 then 48 :: dec n else dec n.

(** Go: one step of UTF-8 decoding (runtime.decoderune, and equivalently
    utf8.DecodeRuneInString) on a non-empty string: the rune and its width;
    an invalid sequence is RuneError = 65533 of width 1. *)
Definition is_cont (b : Z) : bool := (128 <=? b) && (b <=? 191).
Definition decode_rune (s : bytes) : Z * nat :=
  match s with
  | [] => (65533, 0%nat)
  | b0 :: t =>
    if b0 <? 128 then (b0, 1%nat)
    else if (192 <=? b0) && (b0 <? 224) then
      match t with
      | b1 :: _ =>
        if is_cont b1 then
          let r := Z.lor (Z.shiftl (Z.land b0 31) 6) (Z.land b1 63) in
          if 127 <? r then (r, 2%nat) else (65533, 1%nat)
        else (65533, 1%nat)
      | _ => (65533, 1%nat)
      end
    else if (224 <=? b0) && (b0 <? 240) then
      match t with
      | b1 :: b2 :: _ =>
        if is_cont b1 && is_cont b2 then
          let r := Z.lor (Z.lor (Z.shiftl (Z.land b0 15) 12)
                                (Z.shiftl (Z.land b1 63) 6)) (Z.land b2 63) in
          if (2047 <? r) && negb ((55296 <=? r) && (r <=? 57343))
          then (r, 3%nat) else (65533, 1%nat)
        else (65533, 1%nat)
      | _ => (65533, 1%nat)
      end
    else if (240 <=? b0) && (b0 <? 248) then
      match t with
      | b1 :: b2 :: b3 :: _ =>
        if is_cont b1 && is_cont b2 && is_cont b3 then
          let r := Z.lor (Z.lor (Z.lor (Z.shiftl (Z.land b0 7) 18)
                                       (Z.shiftl (Z.land b1 63) 12))
                                (Z.shiftl (Z.land b2 63) 6)) (Z.land b3 63) in
          if (65535 <? r) && (r <=? 1114111) then (r, 4%nat) else (65533, 1%nat)
        else (65533, 1%nat)
      | _ => (65533, 1%nat)
      end
    else (65533, 1%nat)
  end.

(** Go: the (index, rune) pairs of "for i, c := range s". *)
Fixpoint range_aux (fuel : nat) (i : Z) (s : bytes) : list (Z * Z) :=
  match fuel with
  | O => []
  | S f =>
    match s with
    | [] => []
    | _ => let '(r, w) := decode_rune s in
           (i, r) :: range_aux f (i + Z.of_nat w) (skipn w s)
    end
  end.
Definition range_string (s : bytes) : list (Z * Z) := range_aux (List.length s) 0 s.

(** Go: unicode.IsSpace (White_Space property). *)
Definition is_space (r : Z) : bool :=
  ((9 <=? r) && (r <=? 13)) || (r =? 32) || (r =? 133) || (r =? 160)
  || (r =? 5760) || ((8192 <=? r) && (r <=? 8202)) || (r =? 8232) || (r =? 8233)
  || (r =? 8239) || (r =? 8287) || (r =? 12288).

(** Go: strings.TrimLeftFunc(s, unicode.IsSpace). *)
Fixpoint trim_left_aux (fuel : nat) (s : bytes) : bytes :=
  match fuel with
  | O => s
  | S f =>
    match s with
    | [] => []
    | _ => let '(r, w) := decode_rune s in
           if is_space r then trim_left_aux f (skipn w s) else s
    end
  end.
Definition trim_left (s : bytes) : bytes := trim_left_aux (List.length s) s.

(** Go: utf8.RuneStart. *)
Definition rune_start (b : Z) : bool := negb (Z.land b 192 =? 128).

(** Go: utf8.DecodeLastRuneInString: width and rune of the last rune.  The
    argument is the reversed string; up to four bytes back are searched for a
    rune start. *)
Definition decode_last_rune (rev_s : bytes) : Z * nat :=
  match rev_s with
  | [] => (65533, 0%nat)
  | b :: _ =>
    if b <? 128 then (b, 1%nat)
    else
      (* number of bytes back (1..3) of the nearest rune start; Go keeps
         going to lim-1 (clamped at 0) if none is found, and then the widths
         below cannot match *)
      let k :=
        match rev_s with
        | _ :: c1 :: _ =>
          if rune_start c1 then 2%nat else
          match rev_s with
          | _ :: _ :: c2 :: _ =>
            if rune_start c2 then 3%nat else
            match rev_s with
            | _ :: _ :: _ :: c3 :: _ => if rune_start c3 then 4%nat else 5%nat
            | _ => 3%nat
            end
          | _ => 2%nat
          end
        | _ => 1%nat
        end in
      let w := rev (firstn k rev_s) in
      let '(r, n) := decode_rune w in
      if Nat.eqb n (List.length w) then (r, n) else (65533, 1%nat)
  end.

(** Go: strings.TrimRightFunc(s, unicode.IsSpace), on the reversed string. *)
Fixpoint trim_right_aux (fuel : nat) (rev_s : bytes) : bytes :=
  match fuel with
  | O => rev_s
  | S f =>
    match rev_s with
    | [] => []
    | _ => let '(r, w) := decode_last_rune rev_s in
           if is_space r then trim_right_aux f (skipn w rev_s) else rev_s
    end
  end.
Definition trim_right (s : bytes) : bytes :=
  rev (trim_right_aux (List.length s) (rev s)).

(** Go: strings.TrimSpace (its ASCII fast path gives the same result). *)
Definition trim_space (s : bytes) : bytes := trim_right (trim_left s).

(** Go: strings.Split(s, sep) for a one-byte separator. *)
Fixpoint split_on (sep : Z) (s : bytes) : list bytes :=
  match s with
  | [] => [[]]
  | c :: t =>
    if c =? sep then [] :: split_on sep t
    else match split_on sep t with
         | [] => [[c]]
         | p :: ps => (c :: p) :: ps
         end
  end.

(** Go: strings.Contains(s, sep) for a one-byte string. *)
Fixpoint contains_byte (sep : Z) (s : bytes) : bool :=
  match s with [] => false | c :: t => (c =? sep) || contains_byte sep t end.

(** Go: values held in an interface{} by this program. *)
Inductive gval : Type :=
| VNil
| VStr (s : bytes)
| VInt (n : Z)      (* int and int64 *)
| VUint (n : Z)     (* uint64 *)
| VF32 (bits : Z)   (* float32, by bit pattern *)
| VF64 (bits : Z).  (* float64, by bit pattern *)

(** Parts of the Go run time the model leaves open: how %v prints a float of
    a given bit pattern and the local zone's offset (seconds east) at an
    instant. *)
Record runtime : Type := {
  rt_fmt32 : Z -> bytes;
  rt_fmt64 : Z -> bytes;
  rt_zone : Z -> Z
}.

(** Go: fmt verb %v of an interface{}. *)
Definition fmt_v (rt : runtime) (v : gval) : bytes :=
  match v with
  | VNil => bs "<nil>"
  | VStr s => s
  | VInt n => fmt_d n
  | VUint n => fmt_d n
  | VF32 b => rt_fmt32 rt b
  | VF64 b => rt_fmt64 rt b
  end.

(** Go: a map[uint64]V as an association list; "range" visits it in some
    order, so order-independence is stated with Permutation. *)
Definition gomap (V : Type) : Type := list (Z * V).
Fixpoint mget {V} (m : gomap V) (k : Z) : option V :=
  match m with
  | [] => None
  | (k', v) :: t => if k =? k' then Some v else mget t k
  end.
Fixpoint mset {V} (m : gomap V) (k : Z) (v : V) : gomap V :=
  match m with
  | [] => [(k, v)]
  | (k', v') :: t => if k =? k' then (k, v) :: t else (k', v') :: mset t k v
  end.
