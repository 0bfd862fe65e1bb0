(** Specification: answers other than success, and what they may stand for. *)
From Coq Require Import String.
From Verif Require Import M_services.

Inductive question := AskBalance | AskHistory | AskTransaction | AskCoins.

(** Where a service answers about a network. *)
Definition site (n : net) (sv : service) : option string :=
  match sv, n with
  | Blockchair, Main => Some "https://api.blockchair.com/bitcoin/"
  | Blockchair, Test => Some "https://api.blockchair.com/bitcoin/testnet/"
  | Blockstream, Main => Some "https://blockstream.info/api/"
  | Blockstream, Test => Some "https://blockstream.info/testnet/api/"
  | Bitcore, Main => Some "https://api.bitcore.io/api/BTC/mainnet/"
  | Bitcore, Test => Some "https://api.bitcore.io/api/BTC/testnet/"
  | Smartbit, Main => Some "https://api.smartbit.com.au/v1/blockchain/"
  | Smartbit, Test => Some "https://testnet-api.smartbit.com.au/v1/blockchain/"
  | BlockchainInfo, Main => Some "https://blockchain.info/"
  | BlockchainInfo, Test | Node _, _ => None
  end%string.

(** Answers that are taken to say that there is nothing: no transactions, no such
    transaction, no coins. *)
Definition SaysNothing (q : question) (n : net) (sv : service) (r : Response) : Prop :=
  match q, sv, n with
  | AskHistory, Blockchair, _ | AskTransaction, Blockchair, _ | AskCoins, Blockchair, _ => r_status r = 404
  | AskHistory, Blockstream, _ => r_status r = 400
  | AskTransaction, Blockstream, _ => r_status r = 404
  | AskCoins, Blockstream, Test => r_status r = 400
  | AskTransaction, Smartbit, _ => r_status r = 400
  | AskTransaction, BlockchainInfo, Main => r_status r = 500 /\ r_text r = str "Transaction not found"
  | AskCoins, BlockchainInfo, Main => r_status r = 500
  | _, _, _ => False
  end.
(** Answers that are passed over: all others but success.  Bitcore's about balances
    are not (C59_out_of_order_refuted). *)
Definition PassedOver (q : question) (n : net) (sv : service) (r : Response) : Prop :=
  r_status r <> 200 /\ ~ SaysNothing q n sv r /\ ~ (q = AskBalance /\ sv = Bitcore).

Section WithOutside.
Context {E : Type} {OU : Outside E}.
(** Whatever a service is asked, there is no answer or one that is passed over. *)
Definition OutOfOrder (q : question) (n : net) (sv : service) : Prop :=
  exists p, site n sv = Some p /\ forall rest params t e, exists x e', o_get (str p ++ rest) params t e = (x, e') /\
    (x = Raise ReqConnectionError \/ x = Raise ReqTimeout \/ exists r, x = Ok r /\ PassedOver q n sv r).
(** Requests below a path are answered like this. *)
Definition AnswersBelow (n : net) (sv : service) (path : string) (P : Response -> Prop) : Prop :=
  exists p, site n sv = Some p /\ forall rest params t e, exists r e', o_get (str p ++ str path ++ rest) params t e = (Ok r, e') /\ P r.
End WithOutside.
