(** Python values used by the model of ofek/bit.

    [int] is [Z]; [bytes] and [str] are lists of [Z] (byte values resp. code
    points); an exception is a value of type [exc].  Definitions only. *)
From Coq Require Import String Ascii.
From Coq Require Export ZArith List Bool Lia.
Export ListNotations.
Global Open Scope Z_scope.

Definition bytes := list Z.
Definition pystr := list Z.

(** Exception classes that the modelled code can raise. *)
Inductive exc :=
| ValueError | TypeError | OverflowError | IndexError | KeyError
| AttributeError | UnboundLocalError | UnicodeEncodeError
| InsufficientFunds          (* repo: bit/exceptions.py:4 *)
| ExcessiveAddress           (* repo: bit/exceptions.py:8 *)
| BitcoinNodeException       (* repo: bit/exceptions.py:5 *)
| ConnectionError            (* builtin *)
| ReqConnectionError | ReqTimeout | HTTPError (* requests.exceptions; ReadTimeout is a Timeout *)
| InvalidOperation | DivisionByZero | DecimalOverflow (* decimal *)
| Diverges                   (* no Python exception: a loop goes on beyond the given number of rounds *)
| OtherError (n : Z).        (* any other exception class, by number *)

Inductive result (A : Type) : Type :=
| Ok (a : A)
| Raise (e : exc).
Arguments Ok {A} a.
Arguments Raise {A} e.

Definition bind {A B} (r : result A) (f : A -> result B) : result B :=
  match r with Ok a => f a | Raise e => Raise e end.

Definition rmap {A B} (f : A -> B) (r : result A) : result B :=
  match r with Ok a => Ok (f a) | Raise e => Raise e end.

Notation "x <- e ;; k" := (bind e (fun x => k))
  (at level 61, e at next level, right associativity).
Notation "' p <- e ;; k" := (bind e (fun x => match x with p => k end))
  (at level 61, p pattern, e at next level, right associativity).

(** [map] with exceptions, left to right. *)
Fixpoint mapM {A B} (f : A -> result B) (l : list A) : result (list B) :=
  match l with
  | [] => Ok []
  | a :: r => b <- f a ;; bs <- mapM f r ;; Ok (b :: bs)
  end.

(** A Python string literal. *)
Definition str (s : string) : pystr :=
  map (fun a => Z.of_N (N_of_ascii a)) (list_ascii_of_string s).

Definition zlen {A} (l : list A) : Z := Z.of_nat (length l).

Definition is_byte (b : Z) : bool := (0 <=? b) && (b <? 256).
Definition bytes_ok (l : bytes) : bool := forallb is_byte l.

Fixpoint list_eqb (a b : list Z) : bool :=
  match a, b with
  | [], [] => true
  | x :: a', y :: b' => (x =? y) && list_eqb a' b'
  | _, _ => false
  end.

(** [x in container] for a tuple of bytes or strings. *)
Definition in_listb (x : list Z) (l : list (list Z)) : bool := existsb (list_eqb x) l.

(** Slices [l[0:n]] and [l[n:]] for a non-negative [n] of any size. *)
Definition ztake {A} (n : Z) (l : list A) : list A :=
  firstn (Z.to_nat (Z.min n (zlen l))) l.
Definition zdrop {A} (n : Z) (l : list A) : list A :=
  skipn (Z.to_nat (Z.min n (zlen l))) l.

(** Slices [l[:-n]] and [l[-n:]] for a positive constant [n]. *)
Definition drop_last {A} (n : nat) (l : list A) : list A := firstn (length l - n) l.
Definition take_last {A} (n : nat) (l : list A) : list A := skipn (length l - n) l.

(** [int.to_bytes] / [int.from_bytes]. *)
Fixpoint le_bytes (n : nat) (x : Z) : bytes :=
  match n with
  | O => []
  | S k => x mod 256 :: le_bytes k (x / 256)
  end.

Definition to_bytes_le (x : Z) (n : nat) : result bytes :=
  if (x <? 0) || (256 ^ Z.of_nat n <=? x) then Raise OverflowError
  else Ok (le_bytes n x).

Definition to_bytes_be (x : Z) (n : nat) : result bytes :=
  rmap (@rev Z) (to_bytes_le x n).

Fixpoint from_le (l : bytes) : Z :=
  match l with
  | [] => 0
  | b :: r => b + 256 * from_le r
  end.

Definition from_be (l : bytes) : Z := fold_left (fun a b => a * 256 + b) l 0.

(** [int.bit_length] of a non-negative integer. *)
Definition bit_length (x : Z) : Z := if x =? 0 then 0 else Z.log2 x + 1.

(** [bytes.lower] / [str.lower] / [str.upper] restricted to ASCII letters. *)
Definition lower_char (c : Z) : Z := if (65 <=? c) && (c <=? 90) then c + 32 else c.
Definition upper_char (c : Z) : Z := if (97 <=? c) && (c <=? 122) then c - 32 else c.
Definition lower (s : pystr) : pystr := map lower_char s.
Definition upper (s : pystr) : pystr := map upper_char s.

(** Index of the first occurrence: [dict] of positions, [str.find]. *)
Fixpoint index_of (x : Z) (l : list Z) : option Z :=
  match l with
  | [] => None
  | y :: r => if x =? y then Some 0
              else match index_of x r with Some i => Some (i + 1) | None => None end
  end.

(** Indexing [l[i]] with Python's negative indices. *)
Definition py_index {A} (l : list A) (i : Z) : result A :=
  let j := if i <? 0 then i + zlen l else i in
  if (j <? 0) || (zlen l <=? j) then Raise IndexError
  else match nth_error l (Z.to_nat j) with Some a => Ok a | None => Raise IndexError end.

(** Python truth value of an optional boolean ([None] is false). *)
Definition truthy (b : option bool) : bool := match b with Some true => true | _ => false end.
