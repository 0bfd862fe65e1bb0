(** Specification: coins and transactions of a wallet that a service named (C99). *)
From Verif Require Import M_wallet M_services S_Requests S_Answers.

Section WithOutside.
Context {CR : Crypto} {E : Type} {OU : Outside E}.

(** The addresses of a key or wallet. *)
Definition AddressOf (sg : signer) (segwit : bool) (a : pystr) : Prop :=
  if segwit then sg_segwit_address sg = Ok (Some a) else sg_address sg = Ok a.
(** [u] has the outpoint, amount, script and confirmations that one of the services
    named, in the answers [l], for the address of [sg]. *)
Definition Reported (g : Globals) (services : list service) (sg : signer) (segwit : bool) (l : Log) (u : Unspent) : Prop :=
  exists a sv u0, AddressOf sg segwit a /\ In sv services /\ CoinSaid (E:=E) g a sv l u0 /\
    u_txid u = u_txid u0 /\ u_txindex u = u_txindex u0 /\ u_amount u = u_amount u0 /\ u_script u = u_script u0 /\ u_confirmations u = u_confirmations u0.
Definition HistoryReported (services : list service) (sg : signer) (l : Log) (t : pystr) : Prop :=
  exists segwit a sv, AddressOf sg segwit a /\ In sv services /\ TxidSaid a sv l t.
End WithOutside.
