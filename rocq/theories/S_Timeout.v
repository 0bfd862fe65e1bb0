(** Specification: how long requests may last. *)
From Coq Require Import String.
From Verif Require Import M_services S_History S_Requests.

(** The time-out that was set last; 10 seconds at first. *)
Fixpoint timeout_after {E} (ops : list (op E)) (t : option Z) : option Z :=
  match ops with
  | [] => t
  | ServiceTimeout t' :: r => timeout_after r t'
  | _ :: r => timeout_after r t
  end.
Definition Limit {E} (ops : list (op E)) : option Z := timeout_after ops (Some 10).

Section WithOutside.
Context {E : Type} {OU : Outside E}.

(** A log of the requests: to whom and with which time-out. *)
Definition TLog : Type := list (pystr * option Z).
Definition noted {A} (url : pystr) (t : option Z) (m : IO E A) : IO (E * TLog) A :=
  fun s => let (r, e') := m (fst s) in (r, (e', snd s ++ [(url, t)])).
Definition watched : Outside (E * TLog) := {|
  o_get := fun url ps t => noted url t (o_get url ps t);
  o_post := fun url ps t => noted url t (o_post url ps t);
  o_rpc := fun url m args t => noted url t (o_rpc url m args t);
  o_time := fun s => let (r, e') := o_time (fst s) in (r, (e', snd s)) |}.
Definition watch (s : Net (E * TLog)) : TLog := snd (n_outside s).

(** A clock outside.  With a time-out t, a request lasts at most t (the library
    requests applies its time-out to connecting and to waiting for data). *)
Context (clock : E -> Z).
Definition Punctual : Prop :=
  (forall url ps t e, clock (snd (o_get url ps (Some t) e)) <= clock e + t) /\
  (forall url ps t e, clock (snd (o_post url ps (Some t) e)) <= clock e + t).
(** Nobody answers in time. *)
Definition Silent : Prop :=
  (forall url ps t e, exists x, fst (o_get url ps (Some t) e) = Raise x /\ (x = ReqTimeout \/ x = ReqConnectionError)) /\
  (forall url ps t e, exists x, fst (o_post url ps (Some t) e) = Raise x /\ (x = ReqTimeout \/ x = ReqConnectionError)).
End WithOutside.
