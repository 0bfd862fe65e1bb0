(** State and exceptions: calls that change objects or the outside world.
    A call returns its result (or exception) and the new state; state changes
    made before an exception stay. *)
From Verif Require Export Py.

Definition IO (S A : Type) : Type := S -> result A * S.

Section IO.
Context {S : Type}.

Definition iret {A} (a : A) : IO S A := fun s => (Ok a, s).
Definition ilift {A} (r : result A) : IO S A := fun s => (r, s).
Definition ibind {A B} (m : IO S A) (f : A -> IO S B) : IO S B :=
  fun s => match m s with (Ok a, s') => f a s' | (Raise e, s') => (Raise e, s') end.
Definition iget : IO S S := fun s => (Ok s, s).
Definition iput (s : S) : IO S unit := fun _ => (Ok tt, s).

(** try: m except: handler *)
Definition itry {A} (m : IO S A) (handler : exc -> IO S A) : IO S A :=
  fun s => match m s with (Ok a, s') => (Ok a, s') | (Raise e, s') => handler e s' end.

Fixpoint imapM {A B} (f : A -> IO S B) (l : list A) : IO S (list B) :=
  match l with
  | [] => iret []
  | a :: r => ibind (f a) (fun b => ibind (imapM f r) (fun bs => iret (b :: bs)))
  end.
End IO.

Notation "x <~ e ;; k" := (ibind e (fun x => k)) (at level 61, e at next level, right associativity).
Notation "' p <~ e ;; k" := (ibind e (fun x => match x with p => k end))
  (at level 61, p pattern, e at next level, right associativity).

(** A call that only touches a part of the state. *)
Definition zoom {S T A} (get : S -> T) (put : T -> S -> S) (m : IO T A) : IO S A :=
  fun s => let '(r, t) := m (get s) in (r, put t s).
