(** Specification: which requests are made (C60, C78), and what services answer
    about a single transaction (C77). *)
From Coq Require Import String.
From Verif Require Import M_app S_History S_Servers.

(** ** Submitting a transaction *)
(** Where it is posted, and what: a form or JSON.  (On the test network bitcore is told that
    the coin is BCH, which is another currency.) *)
Definition submission (n : net) (tx : pystr) (sv : service) : option (pystr * content) :=
  match sv, n with
  | Blockchair, Main => Some (str "https://api.blockchair.com/bitcoin/push/transaction", Form [(str "data", tx)])
  | Blockchair, Test => Some (str "https://api.blockchair.com/bitcoin/testnet/push/transaction", Form [(str "data", tx)])
  | Blockstream, Main => Some (str "https://blockstream.info/api/tx", Form [(str "data", tx)])
  | Blockstream, Test => Some (str "https://blockstream.info/testnet/api/tx", Form [(str "data", tx)])
  | Bitcore, Main => Some (str "https://api.bitcore.io/api/BTC/mainnet/tx/send", Form [(str "rawTx", tx)])
  | Bitcore, Test => Some (str "https://api.bitcore.io/api/BTC/testnet/tx/send", JsonBody [(str "rawTx", tx); (str "network", str "testnet"); (str "coin", str "BCH")])
  | Smartbit, Main => Some (str "https://api.smartbit.com.au/v1/blockchain/pushtx", JsonBody [(str "hex", tx)])
  | Smartbit, Test => Some (str "https://testnet-api.smartbit.com.au/v1/blockchain/pushtx", JsonBody [(str "hex", tx)])
  | BlockchainInfo, Main => Some (str "https://blockchain.info/pushtx", Form [(str "tx", tx)])
  | _, _ => None
  end.

Section WithOutside.
Context {E : Type} {OU : Outside E}.

(** ** A transaction by its id: [raw] in hex, or unknown *)
Definition Answers (url : pystr) (status : Z) (P : Response -> Prop) : Prop :=
  forall t e, exists r e', o_get url [] t e = (Ok r, e') /\ r_status r = status /\ P r.
Definition ServesRaw (n : net) (txid : pystr) (raw : option pystr) (sv : service) : Prop :=
  match sv with
  | Blockchair =>
      let url := match n with Main => str "https://api.blockchair.com/bitcoin/raw/transaction/"
                            | Test => str "https://api.blockchair.com/bitcoin/testnet/raw/transaction/" end ++ txid in
      match raw with
      | Some h => Replies url [] (fun j => exists d t, Has "data" d j /\ HasKey txid t d /\ Has "raw_transaction" (JStr h) t)
      | None => Answers url 404 (fun _ => True) \/ Replies url [] (fun j => exists d, Has "data" d j /\ In d [JNull; JList []; JObj []])
      end
  | Blockstream =>
      let url := match n with Main => str "https://blockstream.info/api/tx/" | Test => str "https://blockstream.info/testnet/api/tx/" end ++ txid ++ str "/hex" in
      match raw with Some h => RepliesText url (eq h) | None => Answers url 404 (fun _ => True) end
  | Smartbit =>
      let url := match n with Main => str "https://api.smartbit.com.au/v1/blockchain/tx/"
                            | Test => str "https://testnet-api.smartbit.com.au/v1/blockchain/tx/" end ++ txid ++ str "/hex?limit=1000" in
      match raw with
      | Some h => Replies url [] (fun j => exists x r, Has "hex" (JList (x :: r)) j /\ Has "hex" (JStr h) x)
      | None => Answers url 400 (fun _ => True)
      end
  | BlockchainInfo => n = Main /\
      let url := str "https://blockchain.info/rawtx/" ++ txid ++ str "?limit=0&format=hex" in
      match raw with Some h => RepliesText url (eq h) | None => Answers url 500 (fun r => r_text r = str "Transaction not found") end
  | Node url => match raw with
      | Some h => RepliesRpc url "getrawtransaction" [JStr txid; JBool false] (eq (JStr h))
      | None => False   (* a node reports an error: C77_node_unknown *)
      end
  | Bitcore => False    (* is not asked *)
  end.

(** ** The log of requests *)
Definition Log : Type := list (pystr * result Response).
Definition note (url : pystr) (m : IO E Response) : IO (E * Log) Response :=
  fun s => let (r, e') := m (fst s) in (r, (e', snd s ++ [(url, r)])).
Definition logged : Outside (E * Log) := {|
  o_get := fun url ps t => note url (o_get url ps t);
  o_post := fun url ps t => note url (o_post url ps t);
  o_rpc := fun url m args t => note url (o_rpc url m args t);
  o_time := fun s => let (r, e') := o_time (fst s) in (r, (e', snd s)) |}.

(** A link to the next page in an answer. *)
Definition Links (r : result Response) (url : pystr) : Prop := exists resp j p,
  r = Ok resp /\ r_json resp = Ok j /\ jget "next_link" p = Ok (JStr url) /\
  (jget "paging" j = Ok p \/ exists a, jget "address" j = Ok a /\ jget "transaction_paging" a = Ok p).
(** Every request is one of those expected or follows a link in the answer before. *)
Fixpoint Follows (P : pystr -> Prop) (before : option (result Response)) (l : Log) : Prop :=
  match l with
  | [] => True
  | (url, r) :: l => (P url \/ exists r0, before = Some r0 /\ Links r0 url) /\ Follows P (Some r) l
  end.
Definition Only (P : pystr -> Prop) (l : Log) : Prop := Follows P None l.
(** The state and what was asked. *)
Definition asked (s : Net (E * Log)) : Log := snd (n_outside s).

(** ** Where requests go *)
Definition endpoints (n : net) : list string :=
  match n with
  | Main => ["https://api.blockchair.com/bitcoin/dashboards/address/"; "https://api.blockchair.com/bitcoin/raw/transaction/";
             "https://api.blockchair.com/bitcoin/push/transaction"; "https://blockstream.info/api/";
             "https://api.bitcore.io/api/BTC/mainnet/"; "https://api.smartbit.com.au/v1/blockchain/";
             "https://blockchain.info/address/"; "https://blockchain.info/unspent"; "https://blockchain.info/rawtx/";
             "https://blockchain.info/pushtx"]
  | Test => ["https://api.blockchair.com/bitcoin/testnet/"; "https://blockstream.info/testnet/api/";
             "https://api.bitcore.io/api/BTC/testnet/"; "https://testnet-api.smartbit.com.au/v1/blockchain/"]
  end%string.
Definition Within (n : net) (url : pystr) : Prop := exists p rest, In p (endpoints n) /\ url = str p ++ rest.
(** The node that was connected to, and nobody else; or the services of the network. *)
Definition Serving (n : net) (node : option pystr) (url : pystr) : Prop :=
  match node with Some u => url = u | None => Within n url end.
Definition RateUrl (currency url : pystr) : Prop :=
  url = str "https://bitpay.com/rates/BTC/" ++ currency \/
  url = str "https://blockchain.info/tobtc?currency=" ++ upper currency ++ str "&value=1".
Definition FeeUrl (url : pystr) : Prop := url = str "https://mempool.space/api/v1/fees/recommended".
(** What a call may ask after the calls in [ops]. *)
Definition MayAsk {E'} (ops : list (op E')) (o : op E') (url : pystr) : Prop :=
  match o with
  | Balance n _ | Transactions n _ | ById n _ | Unspents n _ | Broadcast n _ => Serving n (connected n ops) url
  | Fee _ | FeeCached _ => FeeUrl url
  | ToSatoshi _ c | ToSatoshiCached _ c | FromSatoshi _ c | FromSatoshiCached _ c => RateUrl c url
  | Connect _ _ _ _ _ _ _ | RateCacheTime _ | FeeCacheTime _ | ServiceTimeout _ | Meanwhile _ => False
  end.
End WithOutside.

(** Random numbers are no requests. *)
Definition logged_chance {E} (CH : Chance E) : Chance (E * Log) := {|
  o_random := fun s => let (r, e') := @o_random E CH (fst s) in (r, (e', snd s)) |}.
