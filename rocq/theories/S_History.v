(** Specification: the calls an application makes, one after the other, and
    what has happened before. *)
From Verif Require Import M_services M_fees.

Section WithOutside.
Context {CR : Crypto} {E : Type} {OU : Outside E} (rounds : nat).

Inductive op :=
| Balance (n : net) (address : pystr) | Transactions (n : net) (address : pystr) | ById (n : net) (txid : pystr)
| Unspents (n : net) (address : pystr) | Broadcast (n : net) (tx : pystr)
| Connect (user password host : pystr) (port : Z) (use_https testnet : bool) (path : pystr)
| Fee (fast : bool) | FeeCached (fast : bool)
| ToSatoshi (amount currency : pystr) | ToSatoshiCached (amount currency : pystr)
| FromSatoshi (num : Z) (currency : pystr) | FromSatoshiCached (num : Z) (currency : pystr)
| RateCacheTime (seconds : Z) | FeeCacheTime (seconds : Z) | ServiceTimeout (seconds : option Z)
| Meanwhile (f : E -> E).  (* anything happens outside *)

(** The state after a call, whether it returns or raises. *)
Definition step (o : op) (s : Net E) : Net E :=
  match o with
  | Balance n a => snd (get_balance n a s)
  | Transactions n a => snd (get_transactions rounds n a s)
  | ById n t => snd (get_transaction_by_id n t s)
  | Unspents n a => snd (get_unspent rounds n a s)
  | Broadcast n t => snd (broadcast_tx n t s)
  | Connect u p h port https t path => snd (connect_to_node u p h port https t path s)
  | Fee f => snd (get_fee f s)
  | FeeCached f => snd (get_fee_cached f s)
  | ToSatoshi a c => snd (currency_to_satoshi a c s)
  | ToSatoshiCached a c => snd (currency_to_satoshi_cached a c s)
  | FromSatoshi x c => snd (satoshi_to_currency x c s)
  | FromSatoshiCached x c => snd (satoshi_to_currency_cached x c s)
  | RateCacheTime t => mkNet (set_rate_cache_time t (n_globals s)) (n_outside s)
  | FeeCacheTime t => mkNet (set_fee_cache_time t (n_globals s)) (n_outside s)
  | ServiceTimeout t => mkNet (set_service_timeout t (n_globals s)) (n_outside s)
  | Meanwhile f => mkNet (n_globals s) (f (n_outside s))
  end.
Fixpoint run (ops : list op) (s : Net E) : Net E :=
  match ops with [] => s | o :: r => run r (step o s) end.

(** The node that was last connected to for a network. *)
Fixpoint connected (n : net) (ops : list op) : option pystr :=
  match ops with
  | [] => None
  | o :: r =>
      match connected n r, o with
      | Some url, _ => Some url
      | None, Connect u p h port https t path =>
          if (match n with Main => negb t | Test => t end) then Some (node_url u p h port https path) else None
      | None, _ => None
      end
  end.

(** How long rates and fees are used: as set last, one minute and ten minutes at first. *)
Definition RateTime (ops : list op) : Z := fold_left (fun t o => match o with RateCacheTime t' => t' | _ => t end) ops 60.
Definition FeeTime (ops : list op) : Z := fold_left (fun t o => match o with FeeCacheTime t' => t' | _ => t end) ops 600.
End WithOutside.
Arguments op E : clear implicits.
