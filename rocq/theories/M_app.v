(** The wallet on top of bit.network: M_wallet.v with the outside world of
    M_rates.v, M_fees.v and M_services.v. *)
From Coq Require Import String.
From Verif Require Export M_wallet M_services M_fees.

(** The module random, as part of the outside. *)
Class Chance (E : Type) := { o_random : IO E Random }.

Section App.
Context {CR : Crypto} {E : Type} {OU : Outside E} {CH : Chance E} (rounds : nat).

(* repo: bit/wallet.py:15, bit/transaction.py:10 the imports; bit/wallet.py:229-243 etc.  Unspents that are None are mapped over
   in get_unspents, which raises TypeError. *)
Definition network : World (Net E) pystr := {|
  w_convert := currency_to_satoshi_cached;
  w_fee := get_fee_cached true;
  w_unspent := fun n address =>
    us <~ get_unspent rounds n address ;;
    match us with Some us => iret us | None => ilift (Raise TypeError) end;
  w_history := M_services.get_transactions rounds;
  w_broadcast := broadcast_tx;
  w_random := outside o_random
|}.

(* repo: bit/wallet.py:208-215, 605-612, 1039-1046, 1362-1369 balance_as *)
Definition balance_as (currency : pystr) : IO (@Wallet (Net E)) pystr :=
  s <~ iget ;; world (satoshi_to_currency_cached (wl_balance s) currency).

(* repo: bit/wallet.py:217-227, 614-624, 1048-1058, 1371-1381 get_balance *)
Definition key_get_balance (sg : signer) (currency : pystr) : IO (@Wallet (Net E)) pystr :=
  _ <~ @get_unspents CR _ _ network sg ;; balance_as currency.

End App.
