(** A scripted outside, for examples. *)
From Coq Require Import String.
From Verif Require Import M_services.

(** The answers to come and the clock. *)
Definition script : Type := list (result Response) * Z.
Definition next : IO script Response := fun e => match fst e with [] => (Raise ReqConnectionError, e) | r :: t => (r, (t, snd e)) end.
#[export] Instance scripted : Outside script := {
  o_get := fun _ _ _ => next; o_post := fun _ _ _ => next; o_rpc := fun _ _ _ _ => next; o_time := fun e => (Ok (snd e), e) }.
Definition at_import (l : list (result Response)) : Net script := mkNet (initial_globals 0 0) (l, 5).
Definition usd_price (s : string) : result Response :=
  Ok (mkResp 200 [] (Ok (JObj [(str "data", JObj [(str "rate", JFloat (str s) (NaN false))])]))).

